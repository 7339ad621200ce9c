(* C120: printed values can be told apart *)
From Coq Require Import String Ascii List ZArith Decimal DecimalString DecimalN Lia.
From Verif Require Import ColorModel InterpModel ShowModel.
Import ListNotations.
Open Scope string_scope.

(* a text without the characters the crate writes around its numbers *)
Definition reserved (c : ascii) : Prop := In c (list_ascii_of_string ",()[]V").
Fixpoint plain (s : string) : Prop := match s with EmptyString => True | String c s => ~ reserved c /\ plain s end.
(* numbers satisfying [P] are written plainly, different ones differently *)
Definition readable {T : Type} (show : T -> string) (P : T -> Prop) : Prop :=
  (forall a, P a -> plain (show a)) /\ (forall a b, P a -> P b -> show a = show b -> a = b).

Lemma app_as s t u : (s ++ t) ++ u = s ++ t ++ u.
Proof. induction s; cbn; congruence. Qed.
Lemma upto c : reserved c -> forall s s' t t', plain s -> plain s' -> s ++ String c t = s' ++ String c t' -> s = s' /\ t = t'.
Proof.
  intro H. induction s as [|a s IH]; destruct s' as [|a' s']; intros t t' P P' E; cbn in *.
  - injection E as E. auto.
  - injection E as E1 E2. subst. tauto.
  - injection E as E1 E2. subst. tauto.
  - injection E as E1 E2. subst a'. destruct (IH s' t t' (proj2 P) (proj2 P') E2) as [-> ->]. auto.
Qed.
Lemma res_comma : reserved ",". Proof. unfold reserved; cbn; tauto. Qed.
Lemma res_close : reserved ")". Proof. unfold reserved; cbn; tauto. Qed.

Section Inj.
Context {T : Type} (show : T -> string) (P : T -> Prop).
Context (HS : readable show P).

Lemma num_comma a b s t : P a -> P b -> show a ++ ", " ++ s = show b ++ ", " ++ t -> a = b /\ s = t.
Proof.
  intros A B E. destruct (upto "," res_comma _ _ _ _ (proj1 HS a A) (proj1 HS b B) E) as [E1 E2]. split; [exact (proj2 HS a b A B E1)|]. cbn in E2. injection E2. auto.
Qed.
Lemma num_close a b s t : P a -> P b -> show a ++ String ")" s = show b ++ String ")" t -> a = b /\ s = t.
Proof.
  intros A B E. destruct (upto ")" res_close _ _ _ _ (proj1 HS a A) (proj1 HS b B) E) as [E1 E2]. split; [exact (proj2 HS a b A B E1)|exact E2].
Qed.
Definition interval_ok (i : interval T) : Prop := match i with Uniform v => P v | Varying => True end.
Lemma interval_close i j s t : interval_ok i -> interval_ok j -> interval_show show i ++ String ")" s = interval_show show j ++ String ")" t -> i = j /\ s = t.
Proof.
  assert (V : forall a u v, P a -> show a ++ String ")" u = "Varying" ++ String ")" v -> False).
  { intros a u v A E. pose proof (proj1 HS a A) as Q. destruct (show a) as [|c r]; cbn in E; [discriminate|]. injection E as E1 _. subst c. apply (proj1 Q). unfold reserved; cbn; tauto. }
  destruct i as [a|], j as [b|]; cbn [interval_ok interval_show]; intros A B E.
  - destruct (num_close a b s t A B E) as [-> ->]. auto.
  - destruct (V a s t A E).
  - destruct (V b t s B (eq_sym E)).
  - cbn in E. injection E as E. auto.
Qed.
Definition sample_ok (s : sample T) : Prop := P (s_nm s) /\ P (s_v s).
Lemma sample_any a b s t : sample_ok a -> sample_ok b -> sample_show show a ++ s = sample_show show b ++ t -> a = b /\ s = t.
Proof.
  destruct a as [n v], b as [n' v']. intros [A1 A2] [B1 B2] E. cbn [s_nm s_v] in *. unfold sample_show in E. cbn [s_nm s_v] in E. rewrite !app_as in E. cbn [append] in E. injection E as E.
  destruct (num_comma n n' _ _ A1 B1 E) as [-> E1]. destruct (num_close v v' s t A2 B2 E1) as [-> ->]. auto.
Qed.
Lemma samples_end l : Forall sample_ok l -> forall m, Forall sample_ok m -> items_show (sample_show show) l ++ "]" = items_show (sample_show show) m ++ "]" -> l = m.
Proof.
  induction 1 as [|a l A _ IH]; intros m M E; destruct M as [|b m B M]; [reflexivity| | |].
  - cbn in E. unfold sample_show in E. cbn in E. discriminate.
  - cbn in E. unfold sample_show in E. cbn in E. discriminate.
  - cbn [items_show] in E. rewrite !app_as in E. destruct (sample_any a b _ _ A B E) as [-> E1]. cbn in E1. injection E1 as E1. f_equal. exact (IH m M E1).
Qed.
Lemma values_end l : Forall P l -> forall m, Forall P m -> items_show show l ++ "]" = items_show show m ++ "]" -> l = m.
Proof.
  assert (V : forall a u, P a -> show a ++ ", " ++ u = "]" -> False).
  { intros a u A E. pose proof (proj1 HS a A) as Q. destruct (show a) as [|c r]; cbn in E; [discriminate|]. injection E as E1 _. subst c. apply (proj1 Q). unfold reserved; cbn; tauto. }
  induction 1 as [|a l A _ IH]; intros m M E; destruct M as [|b m B M]; [reflexivity| | |].
  - cbn [items_show] in E. rewrite !app_as in E. destruct (V b _ B (eq_sym E)).
  - cbn [items_show] in E. rewrite !app_as in E. destruct (V a _ A E).
  - cbn [items_show] in E. rewrite !app_as in E. destruct (num_comma a b _ _ A B E) as [-> E1]. f_equal. exact (IH m M E1).
Qed.
End Inj.

(* whenever numbers can be told apart by their texts, so can colours, shapes, samples and both kinds of spectra *)
Theorem C120_distinct : forall (T : Type) (show : T -> string) (P : T -> Prop), readable show P ->
  (forall a b : rgbf T, P (rgb_r a) /\ P (rgb_g a) /\ P (rgb_b a) -> P (rgb_r b) /\ P (rgb_g b) /\ P (rgb_b b) -> rgb_show show a = rgb_show show b -> a = b) /\
  (forall a b : xyz T, P (xyz_x a) /\ P (xyz_y a) /\ P (xyz_z a) -> P (xyz_x b) /\ P (xyz_y b) /\ P (xyz_z b) -> xyz_show show a = xyz_show show b -> a = b) /\
  (forall a b : sample T, sample_ok P a -> sample_ok P b -> sample_show show a = sample_show show b -> a = b) /\
  (forall a b : spd_shape T, P (sh_start a) /\ P (sh_end a) /\ interval_ok P (sh_interval a) -> P (sh_start b) /\ P (sh_end b) /\ interval_ok P (sh_interval b) -> shape_show show a = shape_show show b -> a = b) /\
  (forall a b : vspd T, P (v_start a) /\ P (v_end a) /\ interval_ok P (v_interval a) /\ Forall (sample_ok P) (v_samples a) ->
    P (v_start b) /\ P (v_end b) /\ interval_ok P (v_interval b) /\ Forall (sample_ok P) (v_samples b) -> vspd_show show a = vspd_show show b -> a = b) /\
  (forall l m : list T, Forall P l -> Forall P m -> spd_show show l = spd_show show m -> l = m).
Proof.
  intros T show P HS. split; [|split; [|split; [|split; [|split]]]].
  - intros [r g b] [r' g' b'] (A1 & A2 & A3) (B1 & B2 & B3) E. unfold rgb_show in E. cbn [rgb_r rgb_g rgb_b] in *. cbn [append] in E. injection E as E.
    destruct (num_comma show P HS _ _ _ _ A1 B1 E) as [-> E1]. destruct (num_comma show P HS _ _ _ _ A2 B2 E1) as [-> E2]. destruct (num_close show P HS _ _ _ _ A3 B3 E2) as [-> _]. reflexivity.
  - intros [r g b] [r' g' b'] (A1 & A2 & A3) (B1 & B2 & B3) E. unfold xyz_show in E. cbn [xyz_x xyz_y xyz_z] in *. cbn [append] in E. injection E as E.
    destruct (num_comma show P HS _ _ _ _ A1 B1 E) as [-> E1]. destruct (num_comma show P HS _ _ _ _ A2 B2 E1) as [-> E2]. destruct (num_close show P HS _ _ _ _ A3 B3 E2) as [-> _]. reflexivity.
  - intros a b A B E. destruct (sample_any show P HS a b "" "" A B) as [-> _]; [rewrite E; reflexivity|reflexivity].
  - intros [r g b] [r' g' b'] (A1 & A2 & A3) (B1 & B2 & B3) E. unfold shape_show in E. cbn [sh_start sh_end sh_interval] in *. cbn [append] in E. injection E as E.
    destruct (num_comma show P HS _ _ _ _ A1 B1 E) as [-> E1]. destruct (num_comma show P HS _ _ _ _ A2 B2 E1) as [-> E2]. destruct (interval_close show P HS _ _ _ _ A3 B3 E2) as [-> _]. reflexivity.
  - intros [l [r g b]] [l' [r' g' b']] (A1 & A2 & A3 & A4) (B1 & B2 & B3 & B4) E. unfold vspd_show in E. unfold v_start, v_end, v_interval in *. cbn [v_samples v_shape sh_start sh_end sh_interval] in *. cbn [append] in E. injection E as E.
    destruct (num_comma show P HS _ _ _ _ A1 B1 E) as [-> E1]. destruct (num_comma show P HS _ _ _ _ A2 B2 E1) as [-> E2]. destruct (interval_close show P HS _ _ _ _ A3 B3 E2) as [-> E3]. injection E3 as E3. rewrite (samples_end show P HS l A4 l' B4 E3). reflexivity.
  - intros l m A B E. unfold spd_show in E. cbn [append] in E. injection E as E. exact (values_end show P HS l A m B E).
Qed.

Lemma digits_plain d : plain (NilEmpty.string_of_uint d).
Proof. induction d; cbn; try exact I; (split; [unfold reserved; cbn; intuition discriminate|assumption]). Qed.
Lemma uint_readable : readable show_uint (fun z => (0 <= z)%Z).
Proof.
  split; [intros a _; apply digits_plain|]. intros a b A B E. unfold show_uint in E. apply (f_equal NilEmpty.uint_of_string) in E. rewrite !NilEmpty.usu in E. injection E as E. apply DecimalN.Unsigned.to_uint_inj in E. lia.
Qed.
(* two 8-bit or 16-bit colours print the same only when they are the same *)
Theorem C120_integer : forall a b : rgbu, (forall f, In f [rgb_r; rgb_g; rgb_b] -> (0 <= f a < 65536 /\ 0 <= f b < 65536)%Z) -> (rgb_show show_uint a = rgb_show show_uint b <-> a = b).
Proof.
  intros a b H. split; [|intros ->; reflexivity]. cbn [In] in H. pose proof (H rgb_r ltac:(auto)). pose proof (H rgb_g ltac:(auto)). pose proof (H rgb_b ltac:(auto)).
  apply (proj1 (C120_distinct Z show_uint _ uint_readable)); intuition lia.
Qed.

(* the texts themselves, and why the separators matter *)
Example C120_example : rgb_show show_uint (Rgb 255 0 17)%Z = "(255, 0, 17)" /\ rgb_show show_uint (Rgb 1 12 3)%Z <> rgb_show show_uint (Rgb 11 2 3)%Z /\
  shape_show show_uint (SpdShape 360 780 Varying)%Z = "(360, 780, Varying)" /\
  vspd_show show_uint (Vspd [Sample 400 1; Sample 405 20] (SpdShape 400 405 (Uniform 5)))%Z = "VSPD(400, 405, 5)[(400, 1), (405, 20), ]" /\
  spd_show show_uint [7; 65535]%Z = "[7, 65535, ]" /\ ~ readable (fun z : Z => "x") (fun _ => True).
Proof.
  split; [reflexivity|]. split; [discriminate|]. split; [reflexivity|]. split; [reflexivity|]. split; [reflexivity|].
  intros [_ H]. specialize (H 0%Z 1%Z I I eq_refl). discriminate.
Qed.
