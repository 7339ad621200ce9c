(* How values flow through the spectral code: three runs on spectra with the same wavelengths, the
   values of the third being a fixed linear combination of those of the first two, stay so related
   (exact arithmetic, NaN/infinity in step). *)
From Coq Require Import Reals ZArith QArith Qreals Lra Lia List Bool.
From Flocq Require Import Core.
From Verif Require Import Outcome RealOps MathModel ColorModel InterpModel VspdModel XReal SpecLin.
Import ListNotations.
Open Scope R_scope.

Inductive Forall3 {A B C : Type} (P : A -> B -> C -> Prop) : list A -> list B -> list C -> Prop :=
| F3_nil : Forall3 P [] [] []
| F3_cons x y z l m n : P x y z -> Forall3 P l m n -> Forall3 P (x :: l) (y :: m) (z :: n).
Definition same3 {A : Type} (x y z : A) : Prop := x = y /\ z = y.
Definition O3 {A B C} (P : A -> B -> C -> Prop) (x : outcome A) (y : outcome B) (z : outcome C) : Prop :=
  match x, y, z with
  | Ret a, Ret b, Ret c => P a b c
  | Panic, Panic, Panic => True
  | OutOfFuel, OutOfFuel, OutOfFuel => True
  | _, _, _ => False
  end.
Lemma O3_bind {A B C A' B' C'} (P : A -> B -> C -> Prop) (Q : A' -> B' -> C' -> Prop) x y z f g h :
  O3 P x y z -> (forall a b c, P a b c -> O3 Q (f a) (g b) (h c)) -> O3 Q (obind x f) (obind y g) (obind z h).
Proof. destruct x, y, z; cbn; try tauto. intros H K. apply K, H. Qed.
Lemma O3_same {A A' B' C'} (Q : A' -> B' -> C' -> Prop) (o : outcome A) f g h :
  (forall a, O3 Q (f a) (g a) (h a)) -> O3 Q (obind o f) (obind o g) (obind o h).
Proof. destruct o; cbn; auto. Qed.
Lemma O3_weaken {A B C} (P Q : A -> B -> C -> Prop) x y z : (forall a b c, P a b c -> Q a b c) -> O3 P x y z -> O3 Q x y z.
Proof. intro H. destruct x, y, z; cbn; auto. Qed.

Section F3.
Context {A B C : Type} (P : A -> B -> C -> Prop).
Lemma F3_length l m n : Forall3 P l m n -> length l = length m /\ length n = length m.
Proof. induction 1; cbn; lia. Qed.
Lemma F3_app l m n l' m' n' : Forall3 P l m n -> Forall3 P l' m' n' -> Forall3 P (l ++ l') (m ++ m') (n ++ n').
Proof. induction 1; cbn; [auto|]. intro. constructor; auto. Qed.
Lemma F3_rev l m n : Forall3 P l m n -> Forall3 P (rev l) (rev m) (rev n).
Proof. induction 1; cbn; [constructor|]. apply F3_app; [assumption|]. constructor; [assumption|constructor]. Qed.
Lemma F3_nth l m n : Forall3 P l m n -> forall k, O3 P (oindex l k) (oindex m k) (oindex n k).
Proof. unfold oindex. induction 1; intros [|k]; cbn; auto. Qed.
Lemma F3_last l m n : Forall3 P l m n -> O3 P (unwrap (last_opt l)) (unwrap (last_opt m)) (unwrap (last_opt n)).
Proof. induction 1 as [|x y z l m n H F IH]; [exact I|]. destruct F; [exact H|]. apply IH. Qed.
Lemma F3_first l m n : Forall3 P l m n -> O3 P (unwrap (first_opt l)) (unwrap (first_opt m)) (unwrap (first_opt n)).
Proof. destruct 1; cbn; auto. Qed.
Lemma F3_firstn k : forall l m n, Forall3 P l m n -> Forall3 P (firstn k l) (firstn k m) (firstn k n).
Proof. induction k as [|k IH]; intros l m n H; [constructor|]. destruct H; cbn; constructor; auto. Qed.
Lemma F3_skipn k : forall l m n, Forall3 P l m n -> Forall3 P (skipn k l) (skipn k m) (skipn k n).
Proof. induction k as [|k IH]; intros l m n H; [exact H|]. destruct H; cbn; [constructor|auto]. Qed.
Lemma F3_upd f g h : (forall x y z, P x y z -> P (f x) (g y) (h z)) -> forall l m n, Forall3 P l m n -> forall k, Forall3 P (list_upd l k f) (list_upd m k g) (list_upd n k h).
Proof. intro H. induction 1; intros [|k]; cbn; constructor; auto. Qed.
Lemma F3_step j : forall l m n, Forall3 P l m n -> forall c, Forall3 P (step_from j c l) (step_from j c m) (step_from j c n).
Proof. induction 1; intros [|c]; cbn; try constructor; auto. Qed.
Lemma F3_map {A' B' C'} (Q : A' -> B' -> C' -> Prop) f g h l m n : (forall x y z, P x y z -> Q (f x) (g y) (h z)) ->
  Forall3 P l m n -> Forall3 Q (map f l) (map g m) (map h n).
Proof. intro H. induction 1; cbn; constructor; auto. Qed.
Lemma O3_omap {X} f g h (l : list X) : (forall x, O3 P (f x) (g x) (h x)) -> O3 (Forall3 P) (omap f l) (omap g l) (omap h l).
Proof.
  intro H. induction l as [|x l IH]; cbn; [constructor|]. eapply O3_bind; [apply H|]. intros a b c Hp. eapply O3_bind; [apply IH|].
  intros. cbn. constructor; assumption.
Qed.
Lemma O3_ofold {X} f g h (l : list X) : (forall a b c x, P a b c -> O3 P (f a x) (g b x) (h c x)) -> forall a b c, P a b c -> O3 P (ofold f l a) (ofold g l b) (ofold h l c).
Proof. intro H. induction l as [|x l IH]; intros a b c Hp; cbn; [exact Hp|]. eapply O3_bind; [apply H, Hp|]. exact IH. Qed.
End F3.
Lemma F3_same {A} (P : A -> A -> A -> Prop) (l m n : list A) : Forall3 same3 l m n -> l = m /\ n = m.
Proof. induction 1 as [|x y z l m n [-> ->] _ [-> ->]]; auto. Qed.

Section Lin.
Context {K : XConst} (al be : R).

Definition LC (x y z : xr) : Prop :=
  match x, y with
  | Fin a, Fin b => z = Fin (al * a + be * b)
  | Bad, Bad => z = Bad
  | _, _ => False
  end.
Ltac lcd := intros; repeat match goal with x : xr |- _ => destruct x end; cbn in *; subst; try tauto; try discriminate;
  repeat match goal with H : Fin _ = Fin _ |- _ => injection H as -> | H : Fin _ = Bad |- _ => discriminate | H : Bad = Fin _ |- _ => discriminate end.
Lemma LC_add x y z x' y' z' : LC x y z -> LC x' y' z' -> LC (radd x x') (radd y y') (radd z z').
Proof. lcd. f_equal. ring. Qed.
Lemma LC_sub x y z x' y' z' : LC x y z -> LC x' y' z' -> LC (rsub x x') (rsub y y') (rsub z z').
Proof. lcd. f_equal. ring. Qed.
Lemma LC_neg x y z : LC x y z -> LC (rneg x) (rneg y) (rneg z).
Proof. lcd. f_equal. ring. Qed.
Lemma LC_mull c x y z : LC x y z -> LC (rmul c x) (rmul c y) (rmul c z).
Proof. lcd. f_equal. ring. Qed.
Lemma LC_mulr c x y z : LC x y z -> LC (rmul x c) (rmul y c) (rmul z c).
Proof. lcd. f_equal. ring. Qed.
Lemma LC_div c x y z : LC x y z -> LC (rdiv x c) (rdiv y c) (rdiv z c).
Proof. lcd. match goal with |- context [Req_EM_T ?c 0] => destruct (Req_EM_T c 0) end; [reflexivity|]. cbn. f_equal. field. assumption. Qed.
Lemma LC_zero : LC (rlitd 0.0) (rlitd 0.0) (rlitd 0.0).
Proof. cbn. f_equal. q2r. lra. Qed.
Lemma LC_bad : LC Bad Bad Bad. Proof. reflexivity. Qed.

Notation LCs := (Forall3 LC).
Lemma LC_fsum l m n : LCs l m n -> LC (fsum l) (fsum m) (fsum n).
Proof.
  unfold fsum. generalize LC_zero. generalize (rlitd 0.0) at 1 4 as a. intros a. generalize (rlitd 0.0 : xr) at 1 3 as b. intro b. generalize (rlitd 0.0 : xr) as c.
  intros c H F. revert a b c H. induction F as [|x y z l m n H F IH]; intros a b c Hc; cbn [fold_left]; [exact Hc|]. apply IH, LC_add; assumption.
Qed.
Lemma LC_zipl c : forall l m n, LCs l m n -> LCs (zip_mul c l) (zip_mul c m) (zip_mul c n).
Proof. unfold zip_mul. induction c as [|a c IH]; intros l m n H; [constructor|]. destruct H; cbn; constructor; [apply LC_mull; assumption|apply IH; assumption]. Qed.
Lemma LC_zipr c : forall l m n, LCs l m n -> LCs (zip_mul l c) (zip_mul m c) (zip_mul n c).
Proof. unfold zip_mul. induction c as [|a c IH]; intros l m n H; destruct H; cbn; constructor; [apply LC_mulr; assumption|apply IH; assumption]. Qed.

Definition SR (a b c : sample xr) : Prop := same3 (s_nm a) (s_nm b) (s_nm c) /\ LC (s_v a) (s_v b) (s_v c).
Definition VR (a b c : vspd xr) : Prop := Forall3 SR (v_samples a) (v_samples b) (v_samples c) /\ same3 (v_shape a) (v_shape b) (v_shape c).

Lemma SR_vals l m n : Forall3 SR l m n -> LCs (map s_v l) (map s_v m) (map s_v n).
Proof. apply F3_map. intros x y z [_ H]. exact H. Qed.
Lemma SR_nms l m n : Forall3 SR l m n -> map s_nm l = map s_nm m /\ map s_nm n = map s_nm m.
Proof. induction 1 as [|x y z l m n [[E1 E2] _] _ [E3 E4]]; cbn; [auto|]. rewrite E1, E2, E3, E4. auto. Qed.

Ltac lc := repeat (first [assumption | apply LC_add | apply LC_sub | apply LC_div | apply LC_mull | apply LC_mulr | apply LC_neg]).
Lemma coeff_a_rel l m n i : LCs l m n -> O3 LCs (coeff_a l i) (coeff_a m i) (coeff_a n i).
Proof.
  intro H. unfold coeff_a. apply O3_same. intro p. apply O3_same. intro q.
  do 6 (eapply O3_bind; [apply (F3_nth _ _ _ _ H)|]; intros). cbn [O3]. repeat apply F3_cons; try apply F3_nil; lc.
Qed.
Definition SpR (a b c : sprague xr) : Prop := same3 (sp_x a) (sp_x b) (sp_x c) /\ LCs (sp_y a) (sp_y b) (sp_y c).
Lemma sprague_new_rel a b c : VR a b c -> O3 SpR (sprague_new a) (sprague_new b) (sprague_new c).
Proof.
  intros [S _]. unfold sprague_new, v_first, v_last. eapply O3_bind; [apply (F3_first _ _ _ _ S)|]. intros f1 f2 f3 [[E1 E2] _].
  eapply O3_bind; [apply (F3_last _ _ _ _ S)|]. intros l1 l2 l3 [[E3 E4] _].
  eapply O3_bind; [apply (F3_nth _ _ _ _ S)|]. intros g1 g2 g3 [[E5 E6] _].
  rewrite E1, E2, E3, E4, E5, E6. cbn [O3]. destruct (SR_nms _ _ _ S) as [-> ->]. split; [split; reflexivity|]. cbn [sp_y].
  pose proof (SR_vals _ _ _ S) as V.
  assert (R := F3_rev _ _ _ _ V).
  apply (F3_app LC [_; _] [_; _] [_; _]); [repeat apply F3_cons; try apply F3_nil; apply LC_div, LC_fsum, LC_zipl; assumption|].
  apply F3_app; [exact V|]. repeat apply F3_cons; try apply F3_nil; apply LC_div, LC_fsum, LC_zipl; assumption.
Qed.
Lemma sprague_evaluate_rel debug a b c x : SpR a b c -> O3 LC (sprague_evaluate debug a x) (sprague_evaluate debug b x) (sprague_evaluate debug c x).
Proof.
  intros [[E1 E2] Y]. unfold sprague_evaluate. rewrite E1, E2. do 3 (apply O3_same; intro). eapply O3_bind; [apply coeff_a_rel, Y|].
  intros l m n H. destruct H as [|? ? ? ? ? ? H0 H]; [exact I|]. destruct H as [|? ? ? ? ? ? H1 H]; [exact I|].
  destruct H as [|? ? ? ? ? ? H2 H]; [exact I|]. destruct H as [|? ? ? ? ? ? H3 H]; [exact I|]. destruct H as [|? ? ? ? ? ? H4 H]; [exact I|].
  destruct H as [|? ? ? ? ? ? H5 H]; [exact I|]. destruct H; [|exact I]. cbn [O3]. lc.
Qed.
Lemma interpolate_rel debug a b c sh : VR a b c -> O3 VR (vspd_interpolate debug a sh) (vspd_interpolate debug b sh) (vspd_interpolate debug c sh).
Proof.
  intros H. unfold vspd_interpolate. eapply O3_bind; [apply sprague_new_rel, H|]. intros p q r Hs. destruct H as [_ [E1 E2]]. unfold v_start, v_end. rewrite E1, E2.
  apply O3_same. intro nms. eapply O3_bind; [apply (O3_omap SR)|].
  - intro x. eapply O3_bind; [apply sprague_evaluate_rel, Hs|]. intros u v w Hl. cbn. split; [split; reflexivity|exact Hl].
  - intros. cbn. split; [assumption|split; reflexivity].
Qed.
Lemma extrapolator_rel a b c x : VR a b c -> O3 LC (extrapolator_evaluate a x) (extrapolator_evaluate b x) (extrapolator_evaluate c x).
Proof.
  intros [S _]. unfold extrapolator_evaluate, v_first, v_last. eapply O3_bind; [apply (F3_first _ _ _ _ S)|]. intros f1 f2 f3 [[E1 E2] L1].
  eapply O3_bind; [apply (F3_last _ _ _ _ S)|]. intros l1 l2 l3 [_ L2]. rewrite E1, E2. destruct (rlt x (s_nm f2)); cbn; assumption.
Qed.
Lemma while_rel a b c cond i : VR a b c -> forall fuel x, O3 (Forall3 SR) (extrap_while fuel cond a i x) (extrap_while fuel cond b i x) (extrap_while fuel cond c i x).
Proof.
  intro H. induction fuel as [|fuel IH]; intro x; cbn [extrap_while]; destruct (cond x); try exact I; try (cbn; constructor).
  eapply O3_bind; [apply extrapolator_rel, H|]. intros. eapply O3_bind; [apply IH|]. intros. cbn. constructor; [|assumption]. split; [split; reflexivity|assumption].
Qed.
Lemma extrapolate_rel fuel a b c sh : VR a b c -> O3 VR (vspd_extrapolate fuel a sh) (vspd_extrapolate fuel b sh) (vspd_extrapolate fuel c sh).
Proof.
  intros H. pose proof H as [S [E1 E2]]. unfold vspd_extrapolate, v_start, v_end, v_interval. rewrite E1, E2.
  apply O3_same. intro i. eapply O3_bind; [apply while_rel, H|]. intros. eapply O3_bind; [apply while_rel, H|]. intros. cbn.
  split; [|split; reflexivity]. cbn. apply F3_app; [assumption|]. apply F3_app; assumption.
Qed.
Lemma align_rel debug fuel a b c sh : VR a b c -> O3 VR (vspd_align debug fuel a sh) (vspd_align debug fuel b sh) (vspd_align debug fuel c sh).
Proof. intro H. unfold vspd_align. eapply O3_bind; [apply interpolate_rel, H|]. intros. apply extrapolate_rel. assumption. Qed.
Lemma trim_rel a b c sh : VR a b c -> O3 VR (vspd_trim a sh) (vspd_trim b sh) (vspd_trim c sh).
Proof.
  intros [S [E1 E2]]. unfold vspd_trim, v_interval. rewrite E1, E2.
  assert (T : forall l m n, Forall3 SR l m n -> Forall3 SR (take_while (fun s => rle (s_nm s) (sh_end sh)) l) (take_while (fun s => rle (s_nm s) (sh_end sh)) m) (take_while (fun s => rle (s_nm s) (sh_end sh)) n)).
  { induction 1 as [|x y z l m n [[F1 F2] L] F IH]; cbn [take_while]; [constructor|]. rewrite F1, F2. destruct (rle (s_nm y) (sh_end sh)); constructor; [split; [split|]; assumption|assumption]. }
  assert (U : forall l m n, Forall3 SR l m n -> Forall3 SR (skip_while (fun s => rlt (s_nm s) (sh_start sh)) l) (skip_while (fun s => rlt (s_nm s) (sh_start sh)) m) (skip_while (fun s => rlt (s_nm s) (sh_start sh)) n)).
  { induction 1 as [|x y z l m n [[F1 F2] L] F IH]; cbn [skip_while]; [constructor|]. rewrite F1, F2. destruct (rlt (s_nm y) (sh_start sh)); [assumption|]. constructor; [split; [split|]; assumption|assumption]. }
  specialize (T _ _ _ (U _ _ _ S)). eapply O3_bind; [apply (F3_first _ _ _ _ T)|]. intros f1 f2 f3 [[G1 G2] _].
  eapply O3_bind; [apply (F3_last _ _ _ _ T)|]. intros l1 l2 l3 [[G3 G4] _]. rewrite G1, G2, G3, G4. cbn. split; [exact T|split; reflexivity].
Qed.
Definition XR (a b c : xyz xr) : Prop :=
  LC (xyz_x a) (xyz_x b) (xyz_x c) /\ LC (xyz_y a) (xyz_y b) (xyz_y c) /\ LC (xyz_z a) (xyz_z b) (xyz_z c).
(* linear in the measured spectrum *)
Lemma sum3_spd i c dw : forall l m n, LCs l m n -> LC (sum3 l i c dw) (sum3 m i c dw) (sum3 n i c dw).
Proof.
  intros l m n H. unfold sum3. apply LC_fsum. revert i c. induction H as [|x y z l m n H F IH]; intros [|a i] [|b c]; cbn; try constructor; [|apply IH]. lc.
Qed.
Lemma integration_spd debug fuel a b c ill cm sh : VR a b c ->
  O3 XR (spd_to_xyz_integration debug fuel a ill cm sh) (spd_to_xyz_integration debug fuel b ill cm sh) (spd_to_xyz_integration debug fuel c ill cm sh).
Proof.
  intro H. unfold spd_to_xyz_integration. do 4 (apply O3_same; intro). eapply O3_bind; [apply align_rel, H|]. intros s1 s2 s3 [S _].
  destruct (sh_interval sh); [|exact I]. cbn. pose proof (SR_vals _ _ _ S) as V. repeat split; apply LC_mull, sum3_spd, V.
Qed.
Lemma weighting_spd debug fuel a b c ill cm : VR a b c ->
  O3 XR (spd_to_xyz_weighting debug fuel a ill cm) (spd_to_xyz_weighting debug fuel b ill cm) (spd_to_xyz_weighting debug fuel c ill cm).
Proof.
  intros H. pose proof H as [_ [E1 E2]]. unfold spd_to_xyz_weighting, v_interval. rewrite E1, E2. destruct (sh_interval (v_shape b)); [|exact I].
  apply O3_same. intro. eapply O3_bind; [apply trim_rel, H|]. intros s1 s2 s3 [S [F1 F2]]. apply O3_same. intros [[wx wy] wz]. apply O3_same. intro nm.
  rewrite F1, F2. apply O3_same. intros [[vx vy] vz]. cbn. pose proof (SR_vals _ _ _ S) as V. repeat split; apply LC_fsum, LC_zipl, V.
Qed.
Lemma to_xyz_spd debug fuel a b c ill cm : VR a b c ->
  O3 XR (vspd_to_xyz debug fuel a ill cm) (vspd_to_xyz debug fuel b ill cm) (vspd_to_xyz debug fuel c ill cm).
Proof.
  intro H. pose proof H as [_ [E1 E2]]. unfold vspd_to_xyz, v_interval, v_start, v_end. do 2 (apply O3_same; intro). rewrite E1, E2.
  destruct (sh_interval (v_shape b)).
  - apply O3_same. intro n. destruct (Z.eqb n 1); [apply integration_spd, H|]. destruct (Z.eqb n 5); [apply integration_spd, H|].
    destruct (Z.eqb n 10); [apply weighting_spd, H|apply integration_spd, H].
  - eapply O3_bind; [apply align_rel, H|]. intros s1 s2 s3 Hs. pose proof Hs as [_ [F1 F2]]. rewrite F1, F2. apply integration_spd, Hs.
Qed.
Lemma nit_spd debug fuel a b c cm : VR a b c -> O3 LC (spd_to_nit debug fuel a cm) (spd_to_nit debug fuel b cm) (spd_to_nit debug fuel c cm).
Proof.
  intros [S [E1 E2]]. unfold spd_to_nit. rewrite E1, E2. apply O3_same. intro y. cbn [O3]. destruct (F3_length _ _ _ _ S) as [L1 L2]. rewrite L1, L2.
  apply LC_div, LC_mulr, LC_fsum, LC_zipr, SR_vals, S.
Qed.

(* the weighting loops are linear in the illuminant *)
Lemma vec_add_rel l m n k x y z : Forall3 LC l m n -> LC x y z -> O3 (Forall3 LC) (vec_add l k x) (vec_add m k y) (vec_add n k z).
Proof.
  intros F H. unfold vec_add. destruct (F3_length _ _ _ _ F) as [-> ->]. destruct (Nat.ltb k (length m)); [|exact I]. cbn [O3].
  apply F3_upd; [|exact F]. intros. apply LC_add; assumption.
Qed.
Lemma wterm_rel r a b l m n y i : Forall3 LC l m n -> O3 LC (wterm r a b l y i) (wterm r a b m y i) (wterm r a b n y i).
Proof.
  intro F. unfold wterm. do 2 (apply O3_same; intro). eapply O3_bind; [apply (F3_nth _ _ _ _ F)|]. intros. apply O3_same. intro. cbn [O3]. apply LC_mulr, LC_mull. assumption.
Qed.
Lemma channel_rel I wc ic c3 c4 l m n y w1 w2 w3 : Forall3 LC l m n -> Forall3 LC w1 w2 w3 ->
  O3 (Forall3 LC) (weights_channel I wc ic c3 c4 l y w1) (weights_channel I wc ic c3 c4 m y w2) (weights_channel I wc ic c3 c4 n y w3).
Proof.
  intros F W. unfold weights_channel. do 4 (apply O3_same; intro).
  eapply O3_bind; [apply (O3_ofold (Forall3 LC)); [|exact W]|].
  { intros u1 u2 u3 j U. apply (O3_ofold (Forall3 LC)); [|exact U]. intros v1 v2 v3 k V. eapply O3_bind; [apply wterm_rel, F|]. intros. apply vec_add_rel; assumption. }
  clear w1 w2 w3 W. intros w1 w2 w3 W. eapply O3_bind; [apply (O3_ofold (Forall3 LC)); [|exact W]|].
  { intros u1 u2 u3 j U. apply O3_same. intro lo. apply (O3_ofold (Forall3 LC)); [|exact U]. intros v1 v2 v3 k V. eapply O3_bind; [apply wterm_rel, F|]. intros. apply vec_add_rel; assumption. }
  clear w1 w2 w3 W. intros w1 w2 w3 W. apply O3_same. intro nj. eapply O3_bind; [apply (O3_ofold (Forall3 LC)); [|exact W]|].
  { intros u1 u2 u3 j U. apply (O3_ofold (Forall3 LC)); [|exact U]. intros v1 v2 v3 k V. apply (O3_ofold (Forall3 LC)); [|exact V]. intros t1 t2 t3 q T. eapply O3_bind; [apply wterm_rel, F|]. intros. apply vec_add_rel; assumption. }
  clear w1 w2 w3 W. intros w1 w2 w3 W. apply (O3_ofold (Forall3 LC)); [|exact W].
  intros u1 u2 u3 j U. eapply O3_bind; [apply (F3_nth _ _ _ _ F)|]. intros. apply O3_same. intro. apply vec_add_rel; [assumption|]. apply LC_mulr. assumption.
Qed.
Lemma step_by_rel k l m n : Forall3 LC l m n -> O3 (Forall3 LC) (step_by k l) (step_by k m) (step_by k n).
Proof. intro F. destruct k; [exact I|]. cbn [step_by O3]. apply F3_step, F. Qed.
Lemma sum3_ill s c dw : forall l m n, Forall3 LC l m n -> LC (sum3 s l c dw) (sum3 s m c dw) (sum3 s n c dw).
Proof.
  intros l m n H. unfold sum3. apply LC_fsum. revert s c. induction H as [|x y z l m n H F IH]; intros [|a s] [|b c]; cbn; try constructor; [|apply IH].
  apply LC_mulr, LC_mulr, LC_mull, H.
Qed.
Lemma norm_ill y dw : forall l m n, Forall3 LC l m n ->
  LC (fsum (map (fun '(i, y) => rmul (rmul i y) dw) (combine l y))) (fsum (map (fun '(i, y) => rmul (rmul i y) dw) (combine m y))) (fsum (map (fun '(i, y) => rmul (rmul i y) dw) (combine n y))).
Proof.
  intros l m n H. apply LC_fsum. revert y. induction H as [|p q r l m n H F IH]; intros [|b y]; cbn; try constructor; [|apply IH]. apply LC_mulr, LC_mulr, H.
Qed.
End Lin.

(* scaling by a nonzero factor cancels in the normalisation *)
Section Scale.
Context {K : XConst} (f : R) (Hf : f <> 0).
Notation SC := (LC f 0).
Lemma O3_eq {A A' B} (P : A -> A -> A' -> Prop) o o' (g : A -> outcome B) h : O3 P o o o' -> (forall a a', P a a a' -> g a = h a') -> obind o g = obind o' h.
Proof. destruct o, o'; cbn; try tauto. intros H E. apply E, H. Qed.
Lemma SC_cancel x x' t t' : SC x x x' -> SC t t t' -> rmul x' (rdiv (rlitd 100.0) t') = rmul x (rdiv (rlitd 100.0) t) /\ rmul (rdiv (rlitd 100.0) t') x' = rmul (rdiv (rlitd 100.0) t) x.
Proof.
  intros H1 H2. destruct t as [t|]; cbn in H2; subst t'.
  - replace (f * t + 0 * t) with (f * t) by ring.
    destruct x as [x|]; cbn in H1; subst x'; [replace (f * x + 0 * x) with (f * x) by ring|]; cbn.
    + destruct (Req_EM_T t 0) as [->|N]; destruct (Req_EM_T (f * _) 0) as [E|E]; try (split; reflexivity).
      * exfalso. apply E. ring.
      * exfalso. apply (Rmult_integral_contrapositive_currified f t Hf N E).
      * cbn. split; f_equal; field; split; assumption.
    + destruct (Req_EM_T t 0); destruct (Req_EM_T (f * t) 0); split; reflexivity.
  - destruct x as [x|]; cbn in H1; subst x'; split; reflexivity.
Qed.
Definition fcore (k : nat) (oc3 oc4 : outcome (list (list xr))) (yx yy yz s : list xr) : outcome (list xr * list xr * list xr) :=
  let! c_c := oc3 in
  let! c_b := oc4 in
  let! ss := step_by k s in
  let! sx := step_by k yx in
  let! sy := step_by k yy in
  let! sz := step_by k yz in
  let! _ := usize_sub (length yx) 1 in
  let! w_x := weights_channel k (length yx) (length (zip_mul ss sx)) c_c c_b s yx (zip_mul ss sx) in
  let! w_y := weights_channel k (length yx) (length (zip_mul ss sx)) c_c c_b s yy (zip_mul ss sy) in
  let! w_z := weights_channel k (length yx) (length (zip_mul ss sx)) c_c c_b s yz (zip_mul ss sz) in
  Ret (map (fun x => rmul x (rdiv (rlitd 100.0) (fsum w_y))) w_x, map (fun x => rmul x (rdiv (rlitd 100.0) (fsum w_y))) w_y,
       map (fun x => rmul x (rdiv (rlitd 100.0) (fsum w_y))) w_z).
Lemma norm_scaled wy wy' : Forall3 SC wy wy wy' -> forall w w', Forall3 SC w w w' ->
  map (fun x => rmul x (rdiv (rlitd 100.0) (fsum wy))) w = map (fun x => rmul x (rdiv (rlitd 100.0) (fsum wy'))) w'.
Proof.
  intros Hy w. pose proof (LC_fsum _ _ _ _ _ Hy) as Hk. revert Hk. generalize (fsum wy), (fsum wy'). intros t t' Hk.
  induction w as [|x w IH]; intros w' H; inversion H; subst; [reflexivity|]. cbn [map]. f_equal; [|apply IH; assumption].
  symmetry. apply SC_cancel; assumption.
Qed.
Lemma channels_scaled k w ic c3 c4 v v' yx yy yz sx sy sz s s' : Forall3 SC v v v' -> Forall3 SC s s s' -> 
 (let! w_x := weights_channel k w ic c3 c4 v yx (zip_mul s sx) in
  let! w_y := weights_channel k w ic c3 c4 v yy (zip_mul s sy) in
  let! w_z := weights_channel k w ic c3 c4 v yz (zip_mul s sz) in
  Ret (map (fun x => rmul x (rdiv (rlitd 100.0) (fsum w_y))) w_x, map (fun x => rmul x (rdiv (rlitd 100.0) (fsum w_y))) w_y,
       map (fun x => rmul x (rdiv (rlitd 100.0) (fsum w_y))) w_z))
 =
 (let! w_x := weights_channel k w ic c3 c4 v' yx (zip_mul s' sx) in
  let! w_y := weights_channel k w ic c3 c4 v' yy (zip_mul s' sy) in
  let! w_z := weights_channel k w ic c3 c4 v' yz (zip_mul s' sz) in
  Ret (map (fun x => rmul x (rdiv (rlitd 100.0) (fsum w_y))) w_x, map (fun x => rmul x (rdiv (rlitd 100.0) (fsum w_y))) w_y,
       map (fun x => rmul x (rdiv (rlitd 100.0) (fsum w_y))) w_z)).
Proof.
  intros V Hs.
  apply (O3_eq (Forall3 SC)); [apply channel_rel; [exact V|apply LC_zipr, Hs]|]. intros wx wx' Hx.
  apply (O3_eq (Forall3 SC)); [apply channel_rel; [exact V|apply LC_zipr, Hs]|]. intros wy wy' Hy.
  apply (O3_eq (Forall3 SC)); [apply channel_rel; [exact V|apply LC_zipr, Hs]|]. intros wz wz' Hz.
  rewrite (norm_scaled _ _ Hy _ _ Hx). rewrite (norm_scaled _ _ Hy _ _ Hy), (norm_scaled _ _ Hy _ _ Hz). reflexivity.
Qed.
Lemma fcore_scaled k oc3 oc4 yx yy yz v v' : Forall3 SC v v v' -> fcore k oc3 oc4 yx yy yz v = fcore k oc3 oc4 yx yy yz v'.
Proof.
  intro V. unfold fcore. destruct oc3 as [c3| |]; cbn [obind]; [|reflexivity|reflexivity]. destruct oc4 as [c4| |]; cbn [obind]; [|reflexivity|reflexivity].
  apply (O3_eq (Forall3 SC)); [apply step_by_rel, V|]. intros s s' Hs.
  destruct (step_by k yx) as [sx| |]; cbn [obind]; [|reflexivity|reflexivity].
  destruct (step_by k yy) as [sy| |]; cbn [obind]; [|reflexivity|reflexivity].
  destruct (step_by k yz) as [sz| |]; cbn [obind]; [|reflexivity|reflexivity].
  assert (L : length (zip_mul s' sx) = length (zip_mul s sx)) by (pose proof (F3_length _ _ _ _ (LC_zipr f 0 sx _ _ _ Hs)); lia). rewrite L.
  destruct (usize_sub (length yx) 1) as [u| |]; cbn [obind]; [|reflexivity|reflexivity]. apply channels_scaled; assumption.
Qed.
Lemma factors_core cm ill sh : weighting_factors_astme2022 cm ill sh =
  match sh_interval (cmf_shape cm) with
  | Varying => Panic
  | Uniform ci => if negb (req ci (rlitd 1.0)) then Panic else if negb (interval_eqb (sh_interval (v_shape ill)) (sh_interval (cmf_shape cm))) then Panic else
     match sh_interval sh with
     | Varying => Panic
     | Uniform i => fcore (as_usize i) (lagrange_coefficients_astm_e2022 i 3) (lagrange_coefficients_astm_e2022 i 4)
                      (v_values (x_bar cm)) (v_values (y_bar cm)) (v_values (z_bar cm)) (v_values ill)
     end
  end.
Proof. reflexivity. Qed.
Lemma factors_scaled cm ill ill' sh : VR f 0 ill ill ill' -> weighting_factors_astme2022 cm ill' sh = weighting_factors_astme2022 cm ill sh.
Proof.
  intros [S [_ E]]. rewrite !factors_core, E. destruct (sh_interval (cmf_shape cm)); [|reflexivity].
  destruct (negb _); [reflexivity|]. destruct (negb _); [reflexivity|]. destruct (sh_interval sh); [|reflexivity].
  symmetry. apply fcore_scaled, (SR_vals _ _ _ _ _ S).
Qed.
Lemma integration_scaled debug fuel spd ill ill' cm sh : VR f 0 ill ill ill' ->
  spd_to_xyz_integration debug fuel spd ill' cm sh = spd_to_xyz_integration debug fuel spd ill cm sh.
Proof.
  intro H. symmetry. unfold spd_to_xyz_integration.
  destruct (vspd_align debug fuel (x_bar cm) sh) as [cx| |]; cbn [obind]; [|reflexivity|reflexivity].
  destruct (vspd_align debug fuel (y_bar cm) sh) as [cy| |]; cbn [obind]; [|reflexivity|reflexivity].
  destruct (vspd_align debug fuel (z_bar cm) sh) as [cz| |]; cbn [obind]; [|reflexivity|reflexivity].
  eapply O3_eq; [apply align_rel, H|]. intros i i' [S _]. pose proof (SR_vals _ _ _ _ _ S) as V. fold (v_values i) in V. fold (v_values i') in V.
  destruct (vspd_align debug fuel spd sh) as [s| |]; cbn [obind]; [|reflexivity|reflexivity]. destruct (sh_interval sh) as [dw|]; [|reflexivity].
  f_equal. f_equal; symmetry; apply SC_cancel; (apply sum3_ill || apply norm_ill); exact V.
Qed.
Lemma weighting_scaled debug fuel spd ill ill' cm : VR f 0 ill ill ill' ->
  spd_to_xyz_weighting debug fuel spd ill' cm = spd_to_xyz_weighting debug fuel spd ill cm.
Proof.
  intro H. symmetry. unfold spd_to_xyz_weighting. destruct (v_interval spd); [|reflexivity]. pose proof H as [_ [_ E]]. rewrite E.
  apply (O3_eq (VR f 0)).
  - destruct (negb _); [apply align_rel, H|exact H].
  - intros j j' Hj. destruct (vspd_trim spd (cmf_shape cm)); cbn [obind]; [|reflexivity|reflexivity]. rewrite (factors_scaled cm j j') by exact Hj. reflexivity.
Qed.
Lemma to_xyz_scaled debug fuel spd ill ill' cm : VR f 0 ill ill ill' -> vspd_to_xyz debug fuel spd ill' cm = vspd_to_xyz debug fuel spd ill cm.
Proof.
  intro H. symmetry. unfold vspd_to_xyz. eapply O3_eq; [apply align_rel, H|]. intros j j' Hj. destruct (cmf_align debug fuel cm _) as [c| |]; cbn [obind]; [|reflexivity|reflexivity].
  destruct (v_interval spd).
  - destruct (unwrap _) as [n| |]; cbn [obind]; [|reflexivity|reflexivity]. destruct (Z.eqb n 1); [symmetry; apply integration_scaled, Hj|].
    destruct (Z.eqb n 5); [symmetry; apply integration_scaled, Hj|]. destruct (Z.eqb n 10); symmetry; [apply weighting_scaled, Hj|apply integration_scaled, Hj].
  - destruct (vspd_align debug fuel spd _) as [s| |]; cbn [obind]; [|reflexivity|reflexivity]. symmetry. apply integration_scaled, Hj.
Qed.
End Scale.
