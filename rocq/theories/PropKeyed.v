(* C118: the colour checker looked up by name *)
From Coq Require Import Reals ZArith QArith Qreals Lra Lia Bool String List.
From Verif Require Import Outcome RealOps MathModel ColorModel AdaptModel SpaceModel TransformModel InterpModel VspdModel UpliftModel XReal PropTables ConvMat PropRef PropRefEnc PropRefLog.
From Verif Require Import DataIllum DataCmf DataChecker DataReference DataLogc DataKeyed CheckerModel.
Import ListNotations.
Open Scope R_scope.
Local Notation Q := QArith_base.Q.

Lemma hashmap_app {V} (l : list (string * V)) e : hashmap (l ++ [e]) = hm_insert (hashmap l) (fst e) (snd e).
Proof. unfold hashmap. rewrite fold_left_app. reflexivity. Qed.
Lemma hashmap_none {V} (l : list (string * V)) n : hashmap l n = None <-> ~ In n (map fst l).
Proof.
  induction l as [|[k v] l IH] using rev_ind; [cbn; split; auto|]. rewrite hashmap_app, map_app, in_app_iff. unfold hm_insert. cbn [fst snd map In]. destruct (String.eqb_spec n k) as [->|N].
  - split; [discriminate|]. intro H. exfalso. tauto.
  - rewrite IH. split; [intros H [I|[I|[]]]; [exact (H I)|exact (N (eq_sym I))]|tauto].
Qed.
Lemma hashmap_some {V} (l : list (string * V)) n v : NoDup (map fst l) -> hashmap l n = Some v <-> In (n, v) l.
Proof.
  induction l as [|[k w] l IH] using rev_ind; intro ND; [cbn; split; [discriminate|tauto]|]. rewrite map_app in ND. cbn [map fst] in ND. apply NoDup_remove in ND. rewrite app_nil_r in ND. destruct ND as [ND NI].
  rewrite hashmap_app, in_app_iff. unfold hm_insert. cbn [fst snd In]. destruct (String.eqb_spec n k) as [->|N].
  - split; [intros [= ->]; auto|]. intros [I|[[= ->]|[]]]; [|reflexivity]. exfalso. apply NI. apply (in_map fst) in I. exact I.
  - rewrite (IH ND). split; [auto|]. intros [I|[[= A B]|[]]]; [exact I|]. exfalso. apply N. symmetry. exact A.
Qed.

Fixpoint distinct (l : list string) : bool := match l with [] => true | a :: l => negb (existsb (String.eqb a) l) && distinct l end.
Lemma distinct_ok l : distinct l = true -> NoDup l.
Proof.
  induction l as [|a l IH]; [constructor|]. cbn. intro H. apply andb_true_iff in H. destruct H as [H D]. constructor; [|apply IH, D]. intro I. apply negb_true_iff in H. assert (E : existsb (String.eqb a) l = true) by (apply existsb_exists; exists a; split; [exact I|apply String.eqb_refl]). rewrite E in H. discriminate.
Qed.
Lemma names_distinct : NoDup NAMES. Proof. apply distinct_ok. reflexivity. Qed.
Lemma tables_keys t : In t keyed_tables -> map fst t = NAMES.
Proof. assert (H : Forall (fun t => map fst t = NAMES) keyed_tables) by (unfold keyed_tables; repeat apply Forall_cons; try reflexivity; apply Forall_nil). rewrite Forall_forall in H. apply H. Qed.

(* what looking up a name in a map does when its keys are the names *)
Definition serves {V} (l : list (string * V)) : Prop :=
  (forall n v, hm_index (hashmap l) n = Ret v <-> In (n, v) l) /\ (forall n, (exists v, hm_index (hashmap l) n = Ret v) <-> In n NAMES) /\ (forall n, hm_index (hashmap l) n = Panic <-> ~ In n NAMES) /\
  (forall i n v, nth_error NAMES i = Some n -> nth_error (map snd l) i = Some v -> hm_index (hashmap l) n = Ret v).
Lemma serves_ok {V} (l : list (string * V)) : map fst l = NAMES -> serves l.
Proof.
  intro E. assert (ND : NoDup (map fst l)) by (rewrite E; exact names_distinct). assert (IDX : forall n v, hm_index (hashmap l) n = Ret v <-> hashmap l n = Some v) by (intros n v; unfold hm_index; destruct (hashmap l n); split; congruence).
  split; [intros n v; rewrite IDX; apply hashmap_some, ND|]. split; [|split].
  - intro n. rewrite <- E. split; [intros (v & H); apply IDX, (hashmap_some _ _ _ ND) in H; apply (in_map fst) in H; exact H|]. intro H. apply in_map_iff in H. destruct H as ((k & v) & <- & H). exists v. apply IDX, (hashmap_some _ _ _ ND), H.
  - intro n. rewrite <- E, <- hashmap_none. unfold hm_index. destruct (hashmap l n); split; congruence.
  - intros i n v H1 H2. rewrite <- E in H1. rewrite nth_error_map in H1, H2. apply IDX, (hashmap_some _ _ _ ND). destruct (nth_error l i) as [[k w]|] eqn:H; cbn in H1, H2; try discriminate. injection H1 as <-. injection H2 as <-. apply nth_error_In in H. exact H.
Qed.

(* all 44 tables of colours and the spectra answer to the 24 names, which are distinct, and to nothing else *)
Theorem C118_lookup : NoDup NAMES /\ length NAMES = 24%nat /\ length keyed_tables = 44%nat /\ (forall t, In t keyed_tables -> serves t) /\ serves keyed_SPECTRAL.
Proof. split; [exact names_distinct|]. split; [reflexivity|]. split; [reflexivity|]. split; [intros t I; apply serves_ok, tables_keys, I|apply serves_ok; reflexivity]. Qed.

Lemma name_index n : In n NAMES -> exists i, nth_error NAMES i = Some n /\ (i < 24)%nat.
Proof. intro I. apply In_nth_error in I. destruct I as (i & H). exists i. split; [exact H|]. change 24%nat with (length NAMES). apply nth_error_Some. congruence. Qed.
Lemma at_pos {A} (l : list A) i : (i < length l)%nat -> exists a, nth_error l i = Some a.
Proof. intro H. destruct (nth_error l i) eqn:E; [eexists; reflexivity|]. apply nth_error_None in E. lia. Qed.
Lemma both {A B} (P : A -> B -> Prop) la lb : Forall2 P la lb -> forall (l : list (string * A)) (m : list (string * B)), map fst l = NAMES -> map fst m = NAMES -> map snd l = la -> map snd m = lb ->
  forall n, In n NAMES -> exists a b, hm_index (hashmap l) n = Ret a /\ hm_index (hashmap m) n = Ret b /\ P a b.
Proof.
  intros F l m K1 K2 E1 E2 n I. destruct (name_index n I) as (i & N & L). assert (LA : length la = 24%nat) by (rewrite <- E1, map_length, <- (map_length fst), K1; reflexivity). assert (LB : length lb = 24%nat) by (rewrite <- E2, map_length, <- (map_length fst), K2; reflexivity).
  destruct (at_pos la i ltac:(lia)) as (a & A1). destruct (at_pos lb i ltac:(lia)) as (b & B1). exists a, b. destruct (serves_ok l K1) as (_ & _ & _ & S1). destruct (serves_ok m K2) as (_ & _ & _ & S2). split; [apply (S1 i); [exact N|rewrite E1; exact A1]|]. split; [apply (S2 i); [exact N|rewrite E2; exact B1]|]. exact (nth_Forall2 _ _ _ i _ _ F A1 B1).
Qed.

Definition keyed_linears : list (list (string * (Q * Q * Q))) := [keyed_SRGB_LINEAR; keyed_ITUR_BT709_LINEAR; keyed_ITUR_BT2020_LINEAR; keyed_DCI_P3_LINEAR; keyed_ACES_LINEAR; keyed_ACES_CG_LINEAR; keyed_ADOBE_RGB_1998_LINEAR; keyed_ALEXA_WIDE_GAMUT_LINEAR].
Definition keyed_codes : list (list (string * (Q * Q * Q)) * list (string * (Q * Q * Q))) :=
  [(keyed_SRGB_LINEAR, keyed_SRGB_ENCODED); (keyed_ITUR_BT709_LINEAR, keyed_ITUR_BT709_ENCODED); (keyed_ITUR_BT2020_LINEAR, keyed_ITUR_BT2020_ENCODED); (keyed_DCI_P3_LINEAR, keyed_DCI_P3_ENCODED); (keyed_ACES_LINEAR, keyed_ACES_ENCODED); (keyed_ACES_CG_LINEAR, keyed_ACES_CG_ENCODED); (keyed_ADOBE_RGB_1998_LINEAR, keyed_ADOBE_RGB_1998_ENCODED)].
Lemma linears_keyed : Forall2 (fun t d => map fst t = NAMES /\ map snd t = d) keyed_linears linears.
Proof. unfold keyed_linears, linears. repeat apply Forall2_cons; try (split; reflexivity). apply Forall2_nil. Qed.
Lemma codes_keyed : Forall2 (fun t d => (map fst (fst t) = NAMES /\ map snd (fst t) = fst d) /\ (map fst (snd t) = NAMES /\ map snd (snd t) = snd d)) keyed_codes coded.
Proof. unfold keyed_codes, coded. repeat apply Forall2_cons; try (split; split; reflexivity). apply Forall2_nil. Qed.
Lemma f2_comp {A B C} (P : A -> B -> Prop) (R : C -> B -> Prop) (T : A -> C -> Prop) (IM : forall a b c, P a b -> R c b -> T a c) l m : Forall2 P l m -> forall k, Forall2 R k m -> Forall2 T l k.
Proof. induction 1; intros k H1; inversion H1; subst; constructor; eauto. Qed.

Section E.
Context {K : XConst}.
(* for every name: the spectrum, seen under D65, is the reference XYZ; that, in each of eight spaces, is the linear reference; and that, encoded, the encoded reference *)
Theorem C118_by_name dbg fuel : XConstOk K -> (420 <= fuel)%nat -> forall n, In n NAMES ->
  (exists d65 cm l q sp c, spd_D65 = Ret d65 /\ cie_1931_2_degree = Ret cm /\ hm_index SPECTRAL n = Ret l /\ hm_index XYZ_D65 n = Ret q /\ vspd_table l = Ret sp /\ vspd_to_xyz dbg fuel sp d65 cm = Ret c /\ near_xyz (2 / 10 ^ 14) q c) /\
  Forall2 (fun o t => exists s m q r, o = Ret s /\ xyz_to_rgb_matrix (cs_white SRGB) s = Ret m /\ hm_index XYZ_D65 n = Ret q /\ hm_index (hashmap t) n = Ret r /\ near_rgb (1 / 10 ^ 15) r (xyz_to_rgb m (ref_xyz q))) ref_spaces keyed_linears /\
  Forall2 (fun o t => exists s p r, o = Ret s /\ hm_index (hashmap (fst t)) n = Ret p /\ hm_index (hashmap (snd t)) n = Ret r /\ near_rgb (1 / 10 ^ 15) r (cs_encode s (ref_rgb p))) (firstn 7 ref_spaces) keyed_codes /\
  (exists p r, hm_index (hashmap keyed_ALEXA_WIDE_GAMUT_LINEAR) n = Ret p /\ hm_index (hashmap keyed_ALEXA_WIDE_GAMUT_ENCODED) n = Ret r /\ near_rgb (1 / 10 ^ 15) r (cs_encode ALEXA_WIDE_GAMUT (ref_rgb p))).
Proof.
  intros OK F n I. assert (KS : map fst keyed_SPECTRAL = NAMES) by reflexivity. assert (DS : map snd keyed_SPECTRAL = data_spectral) by reflexivity. assert (KX : map fst keyed_XYZ_D65 = NAMES) by reflexivity. assert (DX : map snd keyed_XYZ_D65 = data_XYZ_D65) by reflexivity.
  split; [|split; [|split]].
  - destruct (C101_xyz dbg fuel OK F) as (d65 & cm & E1 & E2 & H). destruct (both _ _ _ H keyed_SPECTRAL keyed_XYZ_D65 KS KX DS DX n I) as (l & q & A & B & sp & c & V & W & N). exists d65, cm, l, q, sp, c. exact (conj E1 (conj E2 (conj A (conj B (conj V (conj W N)))))).
  - refine (f2_comp _ _ _ _ _ _ (C101_linear OK) _ linears_keyed). intros o d t (s & m & E1 & E2 & H) (K1 & D1). destruct (both _ _ _ H keyed_XYZ_D65 t KX K1 DX D1 n I) as (q & r & A & B & N). exists s, m, q, r. exact (conj E1 (conj E2 (conj A (conj B N)))).
  - refine (f2_comp _ _ _ _ _ _ (C101_encoded OK) _ codes_keyed). intros o d t (s & E1 & H) ((K1 & D1) & (K2 & D2)). destruct (both _ _ _ H (fst t) (snd t) K1 K2 D1 D2 n I) as (p & r & A & B & N). exists s, p, r. exact (conj E1 (conj A (conj B N))).
  - exact (both _ _ _ C101_encoded_logc keyed_ALEXA_WIDE_GAMUT_LINEAR keyed_ALEXA_WIDE_GAMUT_ENCODED eq_refl eq_refl eq_refl eq_refl n I).
Qed.
End E.

Example C118_example : hm_index XYZ_D65 "white_95"%string = Ret (86.236736258404803834309860, 91.236914549892304648892605, 95.431166160775632079094066)%Q /\ hm_index XYZ_D65 "white"%string = Panic /\ hm_index (hashmap [("a", 1%Z); ("b", 2%Z); ("a", 3%Z)]%string) "a"%string = Ret 3%Z.
Proof. repeat split. Qed.
