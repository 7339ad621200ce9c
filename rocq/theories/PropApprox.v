(* C112: approximate equality of colours and spectra; the bounds of colour types *)
From Coq Require Import Reals ZArith QArith Lra Lia Bool List.
From Flocq Require Import Core BinarySingleNaN.
From Verif Require Import Outcome RealOps MathModel ColorModel InterpModel VspdModel XReal FloatInst FloatProofs ErrProofs PropShape.
Import ListNotations.

(* ---- the code ---- *)
Section Model.
Context {T : Type} {O : RealOps T}.
(* xyz.rs 114-131 *)
Definition xyz_min_value : xyz T := Xyz rmin_value rmin_value rmin_value.
Definition xyz_max_value : xyz T := Xyz rmax_value rmax_value rmax_value.
(* xyz.rs 173-187; the margin is {epsilon, ulps} *)
Definition xyz_approx_eq (a b : xyz T) (eps : T) (ulps : Z) : bool :=
  rapprox (xyz_x a) (xyz_x b) eps ulps && rapprox (xyz_y a) (xyz_y b) eps ulps && rapprox (xyz_z a) (xyz_z b) eps ulps.
(* vspd.rs 137-143 *)
Definition sample_approx_eq (a b : sample T) (eps : T) (ulps : Z) : bool :=
  rapprox (s_nm a) (s_nm b) eps ulps && rapprox (s_v a) (s_v b) eps ulps.
(* vspd.rs 759-765 *)
Definition vspd_approx_eq (a b : vspd T) (eps : T) (ulps : Z) : bool :=
  Nat.eqb (length (v_samples a)) (length (v_samples b))
  && forallb (fun '(l, r) => sample_approx_eq l r eps ulps) (combine (v_samples a) (v_samples b)).

(* ---- componentwise ---- *)
Definition near_at (eps : T) (ulps : Z) (x y : T) : Prop := rapprox x y eps ulps = true.
Lemma xyz_near a b eps ulps : xyz_approx_eq a b eps ulps = true <-> near_at eps ulps (xyz_x a) (xyz_x b) /\ near_at eps ulps (xyz_y a) (xyz_y b) /\ near_at eps ulps (xyz_z a) (xyz_z b).
Proof. unfold xyz_approx_eq, near_at. rewrite !andb_true_iff. tauto. Qed.
Lemma rgb_near a b eps ulps : rgb_approx_eq a b eps ulps = true <-> near_at eps ulps (rgb_r a) (rgb_r b) /\ near_at eps ulps (rgb_g a) (rgb_g b) /\ near_at eps ulps (rgb_b a) (rgb_b b).
Proof. unfold rgb_approx_eq, near_at. rewrite !andb_true_iff. tauto. Qed.
Lemma sample_near a b eps ulps : sample_approx_eq a b eps ulps = true <-> near_at eps ulps (s_nm a) (s_nm b) /\ near_at eps ulps (s_v a) (s_v b).
Proof. unfold sample_approx_eq, near_at. apply andb_true_iff. Qed.
Lemma list_near (P : sample T -> sample T -> bool) l m : (length l = length m /\ forallb (fun '(x, y) => P x y) (combine l m) = true) <-> Forall2 (fun x y => P x y = true) l m.
Proof.
  revert m. induction l as [|x l IH]; intros [|y m]; cbn [length combine forallb].
  - split; [constructor|split; reflexivity].
  - split; [intros [H _]; discriminate|intro H; inversion H].
  - split; [intros [H _]; discriminate|intro H; inversion H].
  - rewrite andb_true_iff. split.
    + intros [H [A B]]. constructor; [exact A|]. apply IH. split; [now injection H|exact B].
    + intro H. inversion H as [|? ? ? ? A F]; subst. apply IH in F. destruct F as [LE F]. split; [now rewrite LE|]. split; assumption.
Qed.
Lemma vspd_near_list a b eps ulps : vspd_approx_eq a b eps ulps = true <-> Forall2 (fun l r => sample_approx_eq l r eps ulps = true) (v_samples a) (v_samples b).
Proof. unfold vspd_approx_eq. rewrite andb_true_iff, Nat.eqb_eq. apply list_near. Qed.
Theorem C112_componentwise (eps : T) (ulps : Z) :
  (forall a b, rgb_approx_eq a b eps ulps = true <-> near_at eps ulps (rgb_r a) (rgb_r b) /\ near_at eps ulps (rgb_g a) (rgb_g b) /\ near_at eps ulps (rgb_b a) (rgb_b b))
  /\ (forall a b, xyz_approx_eq a b eps ulps = true <-> near_at eps ulps (xyz_x a) (xyz_x b) /\ near_at eps ulps (xyz_y a) (xyz_y b) /\ near_at eps ulps (xyz_z a) (xyz_z b))
  /\ (forall a b, vspd_approx_eq a b eps ulps = true <-> length (v_samples a) = length (v_samples b) /\
       forall k l r, nth_error (v_samples a) k = Some l -> nth_error (v_samples b) k = Some r -> near_at eps ulps (s_nm l) (s_nm r) /\ near_at eps ulps (s_v l) (s_v r)).
Proof.
  split; [intros a b; apply rgb_near|]. split; [intros a b; apply xyz_near|]. intros a b. rewrite vspd_near_list. generalize (v_samples a) (v_samples b). clear a b. intros l m. split.
  - induction 1 as [|x y l m H F [LE IH]]; [split; [reflexivity|intros [|k]; discriminate]|]. split; [cbn; now rewrite LE|]. intros [|k] p q; cbn [nth_error]; [intros [= <-] [= <-]; apply sample_near, H|apply IH].
  - revert m. induction l as [|x l IH]; intros [|y m] [LE H]; try discriminate; constructor.
    + apply sample_near. exact (H 0%nat x y eq_refl eq_refl).
    + apply IH. split; [now injection LE|]. intros k. exact (H (S k)).
Qed.

(* ---- what is true of numbers is true of colours and spectra ---- *)
(* P: the numbers that are near themselves, as all but NaN are *)
Definition near_ok (P : T -> Prop) (eps : T) (ulps : Z) : Prop := (forall x, P x -> near_at eps ulps x x) /\ (forall x y, near_at eps ulps x y -> near_at eps ulps y x) /\ (forall x y, req x y = true -> near_at eps ulps x y).
Theorem C112_relation (P : T -> Prop) (eps : T) (ulps : Z) : near_ok P eps ulps ->
  (forall a, P (rgb_r a) -> P (rgb_g a) -> P (rgb_b a) -> rgb_approx_eq a a eps ulps = true) /\ (forall a b, rgb_approx_eq a b eps ulps = rgb_approx_eq b a eps ulps) /\ (forall a b, rgb_eqb a b = true -> rgb_approx_eq a b eps ulps = true)
  /\ (forall a, P (xyz_x a) -> P (xyz_y a) -> P (xyz_z a) -> xyz_approx_eq a a eps ulps = true) /\ (forall a b, xyz_approx_eq a b eps ulps = xyz_approx_eq b a eps ulps)
  /\ (forall a, Forall (fun s => P (s_nm s) /\ P (s_v s)) (v_samples a) -> vspd_approx_eq a a eps ulps = true) /\ (forall a b, vspd_approx_eq a b eps ulps = vspd_approx_eq b a eps ulps) /\ (forall a b, vspd_eqb a b = true -> vspd_approx_eq a b eps ulps = true).
Proof.
  intros (RF & SY & EQ). repeat apply conj.
  - intros a A B C. apply rgb_near. auto.
  - intros a b. apply eq_true_iff_eq. rewrite !rgb_near. intuition.
  - intros a b. unfold rgb_eqb. rewrite !andb_true_iff. intros [[A B] C]. apply rgb_near. auto.
  - intros a A B C. apply xyz_near. auto.
  - intros a b. apply eq_true_iff_eq. rewrite !xyz_near. intuition.
  - intros a F. apply vspd_near_list. induction F as [|x l [A B] F IH]; constructor; [apply sample_near; auto|exact IH].
  - intros a b. apply eq_true_iff_eq. rewrite !vspd_near_list. assert (W : forall l m, Forall2 (fun l r => sample_approx_eq l r eps ulps = true) l m -> Forall2 (fun l r => sample_approx_eq l r eps ulps = true) m l).
    { induction 1 as [|x y l m H F IH]; constructor; [|exact IH]. apply sample_near in H. apply sample_near. destruct H. auto. } split; apply W.
  - intros a b H. apply vspd_eqb_spec in H. destruct H as [F _]. apply vspd_near_list. induction F as [|x y l m [A B] F IH]; constructor; [apply sample_near; auto|exact IH].
Qed.
End Model.

(* ---- the bounds ---- *)
Section Fmt.
Context (prec emax : Z) {Hp : Prec_gt_0 prec} {He : Prec_lt_emax prec emax}.
Notation fl := (binary_float prec emax).
Context (L : libm fl) (lit : Q -> fl).
Notation ops := (b_ops prec emax L lit).
Definition within (lo hi v : fl) : Prop := @rle _ ops lo v = true /\ @rle _ ops v hi = true.
Definition tight : Prop :=
  (forall c : rgbf fl, is_finite (rgb_r c) = true -> is_finite (rgb_g c) = true -> is_finite (rgb_b c) = true ->
     within (rgb_r (@rgb_min_value _ ops)) (rgb_r (@rgb_max_value _ ops)) (rgb_r c) /\ within (rgb_g (@rgb_min_value _ ops)) (rgb_g (@rgb_max_value _ ops)) (rgb_g c) /\ within (rgb_b (@rgb_min_value _ ops)) (rgb_b (@rgb_max_value _ ops)) (rgb_b c))
  /\ (forall c : xyz fl, is_finite (xyz_x c) = true -> is_finite (xyz_y c) = true -> is_finite (xyz_z c) = true ->
     within (xyz_x (@xyz_min_value _ ops)) (xyz_x (@xyz_max_value _ ops)) (xyz_x c) /\ within (xyz_y (@xyz_min_value _ ops)) (xyz_y (@xyz_max_value _ ops)) (xyz_y c) /\ within (xyz_z (@xyz_min_value _ ops)) (xyz_z (@xyz_max_value _ ops)) (xyz_z c))
  /\ (forall v : fl, In v [rgb_r (@rgb_min_value _ ops); rgb_g (@rgb_min_value _ ops); rgb_b (@rgb_min_value _ ops); xyz_x (@xyz_min_value _ ops); xyz_y (@xyz_min_value _ ops); xyz_z (@xyz_min_value _ ops);
       rgb_r (@rgb_max_value _ ops); rgb_g (@rgb_max_value _ ops); rgb_b (@rgb_max_value _ ops); xyz_x (@xyz_max_value _ ops); xyz_y (@xyz_max_value _ ops); xyz_z (@xyz_max_value _ ops)] -> is_finite v = true).
Context (top : is_finite (@Bmax_float prec emax Hp He) = true /\ B2R (@Bmax_float prec emax Hp He) = (bpow radix2 emax - bpow radix2 (emax - prec))%R).
Lemma all_within v : is_finite v = true -> within (Bopp Bmax_float) Bmax_float v.
Proof.
  intro F. destruct top as [FT VT]. pose proof (abs_B2R_le_emax_minus_prec prec emax Hp v) as B. rewrite <- VT in B. apply Rabs_le_inv in B.
  assert (FO : is_finite (Bopp (@Bmax_float prec emax Hp He)) = true) by (rewrite is_finite_Bopp; exact FT). unfold within. cbn [rle b_ops].
  rewrite !Bleb_correct by assumption. rewrite B2R_Bopp. split; apply Rle_bool_true; lra.
Qed.
Lemma bounds_tight : tight.
Proof.
  assert (FO : is_finite (Bopp (@Bmax_float prec emax Hp He)) = true) by (rewrite is_finite_Bopp; exact (proj1 top)).
  split; [intros c A B C; repeat (split; [apply all_within; assumption|]); apply all_within; assumption|]. split; [intros c A B C; repeat (split; [apply all_within; assumption|]); apply all_within; assumption|].
  intros v I. cbn [In] in I. repeat (destruct I as [<-|I]; [first [exact FO|exact (proj1 top)]|]). contradiction.
Qed.
End Fmt.
Theorem C112_bounds_f32 (L : libm f32) : tight 24 128 L (fun q => f64_to_f32 (b_of_Q 53 1024 q)).
Proof.
  apply bounds_tight. split; [vm_compute; reflexivity|]. 
  assert (E : B2SF (@Bmax_float 24 128 _ _) = SpecFloat.S754_finite false 16777215 104) by (vm_compute; reflexivity). rewrite <- SF2R_B2SF, E. unfold SF2R, Defs.F2R. cbn [Defs.Fnum Defs.Fexp cond_Zopp]. replace (bpow radix2 128) with (bpow radix2 24 * bpow radix2 104)%R by (rewrite <- bpow_plus; reflexivity). change (bpow radix2 24) with 16777216%R. change (128 - 24)%Z with 104%Z. lra.
Qed.
Theorem C112_bounds_f64 (L : libm (binary_float 53 1024)) : tight 53 1024 L (b_of_Q 53 1024).
Proof.
  apply bounds_tight. split; [vm_compute; reflexivity|].
  assert (E : B2SF (@Bmax_float 53 1024 _ _) = SpecFloat.S754_finite false 9007199254740991 971) by (vm_compute; reflexivity). rewrite <- SF2R_B2SF, E. unfold SF2R, Defs.F2R. cbn [Defs.Fnum Defs.Fexp cond_Zopp]. replace (bpow radix2 1024) with (bpow radix2 53 * bpow radix2 971)%R by (rewrite <- bpow_plus; reflexivity). change (bpow radix2 53) with 9007199254740992%R. change (1024 - 53)%Z with 971%Z. lra.
Qed.

(* the assumptions on numbers are met by "no further apart than epsilon" *)
Example C112_relation_met (e : R) (u : Z) : (0 <= e)%R -> @near_ok _ (@xr_ops f64_const) (fun x => x <> Bad) (Fin e) u.
Proof.
  intro E. unfold near_ok, near_at. cbn [rapprox req xr_ops]. unfold xapp. cbn [xapprox f64_const]. unfold margin_approx. repeat apply conj.
  - intros [x|] H; [|congruence]. unfold Rminus. rewrite Rplus_opp_r, Rabs_R0. apply Rleb_true; lra.
  - intros [x|] [y|]; try discriminate. rewrite Rabs_minus_sym. auto.
  - intros [x|] [y|]; cbn [xcmp]; try discriminate. unfold Reqb. destruct (Req_EM_T x y) as [->|]; [|discriminate]. intros _. unfold Rminus. rewrite Rplus_opp_r, Rabs_R0. apply Rleb_true; lra.
Qed.
Definition approx_by {T} (L : libm T) (f : T -> T -> T -> Z -> bool) : libm T := {| l_exp := l_exp L; l_sin := l_sin L; l_cos := l_cos L; l_log10 := l_log10 L; l_powf := l_powf L; l_powi := l_powi L; l_atan2 := l_atan2 L; l_hypot := l_hypot L; l_degrees := l_degrees L; l_radians := l_radians L; l_approx := f |}.
Definition plain_rule (x y e : binary_float 53 1024) (_ : Z) : bool := Beqb x y || Bleb (Babs (Bminus mode_NE x y)) e.
Example C112_example (L : libm (binary_float 53 1024)) : let ops := b_ops 53 1024 (approx_by L plain_rule) (b_of_Q 53 1024) in
  let s a b := Vspd [Sample (b_of_Z 53 1024 400) (b_of_Q 53 1024 a); Sample (b_of_Z 53 1024 405) (b_of_Q 53 1024 b)] (SpdShape (b_of_Z 53 1024 400) (b_of_Z 53 1024 405) (Uniform (b_of_Z 53 1024 5))) in
  let short := Vspd [Sample (b_of_Z 53 1024 400) (b_of_Q 53 1024 0.5)] (SpdShape (b_of_Z 53 1024 400) (b_of_Z 53 1024 400) Varying) in
  @vspd_approx_eq _ ops (s 0.5 0.25)%Q (s 0.5001 0.2499)%Q (b_of_Q 53 1024 0.001) 0 = true /\ @vspd_approx_eq _ ops (s 0.5 0.25)%Q (s 0.5001 0.2599)%Q (b_of_Q 53 1024 0.001) 0 = false /\ @vspd_approx_eq _ ops (s 0.5 0.25)%Q short (b_of_Q 53 1024 0.001) 0 = false.
Proof. vm_compute. auto. Qed.
