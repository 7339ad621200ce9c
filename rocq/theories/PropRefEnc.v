(* C101, continued: the encoded references *)
From Coq Require Import Reals ZArith QArith Qreals Lra Lia Bool List.
From Flocq Require Import Core.
From Verif Require Import Outcome RealOps MathModel ColorModel AdaptModel SpaceModel TransformModel XReal SpecLin VspdModel MatProofs AdaptProofs SpaceProofs ConvMat ConvProofs PropConv PowProofs PropRef.
From Verif Require Import DataReference.
Import ListNotations.
Open Scope R_scope.

Definition within (tol x e : Q) : bool := (Qle_bool (e - tol) x && Qle_bool x (e + tol))%bool.
Lemma within_ok tol x e : within tol x e = true -> Rabs (Q2R x - Q2R e) <= Q2R tol.
Proof. intro H. apply andb_true_iff in H. destruct H as [A B]. apply Qle_bool_iff, Qle_Rle in A, B. rewrite Q2R_minus in A. rewrite Q2R_plus in B. apply Rabs_le. lra. Qed.
(* a x^(p/q) - o against e *)
Definition curve_check (p q : positive) (a o tol x e : Q) : bool := root_check p q x ((e + o - tol) / a) ((e + o + tol) / a).
Lemma curve_check_ok p q a o tol x e : 0 < Q2R a -> curve_check p q a o tol x e = true -> 0 < Q2R x /\ Rabs (Q2R a * Rpower (Q2R x) (IZR (Zpos p) / IZR (Zpos q)) - Q2R o - Q2R e) <= Q2R tol.
Proof.
  intros PA H. apply root_check_ok in H. destruct H as [PX [L U]]. split; [exact PX|].
  assert (NA : ~ (a == 0)%Q) by (intro Z; apply Qeq_eqR in Z; rewrite Z, RMicromega.Q2R_0 in PA; lra). rewrite Q2R_div in L, U by exact NA. rewrite Q2R_minus, Q2R_plus in L. rewrite !Q2R_plus in U.
  set (y := Rpower _ _) in *. clearbody y. apply (Rmult_le_compat_l (Q2R a)) in L; [|lra]. apply (Rmult_le_compat_l (Q2R a)) in U; [|lra].
  replace (Q2R a * ((Q2R e + Q2R o - Q2R tol) / Q2R a)) with (Q2R e + Q2R o - Q2R tol) in L by (field; lra). replace (Q2R a * ((Q2R e + Q2R o + Q2R tol) / Q2R a)) with (Q2R e + Q2R o + Q2R tol) in U by (field; lra). apply Rabs_le. lra.
Qed.
Definition enc_check (k : kind) (tol x e : Q) : bool :=
  match k with
  | KSrgb => if Qle_bool x 0.0031308 then within tol (x * 12.92) e else curve_check 5 12 1.055 0.055 tol x e
  | KBt709 => if Qle_bool x 0.018 then within tol (x * 4.5) e else curve_check 9 20 1.099 0.099 tol x e
  | KBt2020 => if Qle_bool 0.018 x then curve_check 9 20 1.099 0.099 tol x e else within tol (x * 4.5) e
  | KPow g => match (Qred g) with Zpos q # p => root_check p q x (e - tol) (e + tol) | _ => false end
  | KLin => within tol x e
  end.
Lemma qle_f x y : Qle_bool x y = false -> Q2R y < Q2R x.
Proof. intro H. apply Qlt_Rlt. apply Qnot_le_lt. intro L. apply Qle_bool_iff in L. congruence. Qed.
Lemma qle_t x y : Qle_bool x y = true -> Q2R x <= Q2R y.
Proof. intro H. apply Qle_Rle, Qle_bool_iff, H. Qed.

Section E.
Context {K : XConst}.
Lemma enc_check_ok k tol x e : enc_check k tol x e = true -> nearc (Q2R tol) e (kenc k (Fin (Q2R x))).
Proof.
  destruct k as [| | |g|]; cbn [enc_check kenc]; intro H.
  - eexists. split; [apply (proj2 srgb_x)|]. unfold encR. destruct (Qle_bool x 0.0031308) eqn:C.
    + apply qle_t in C. destruct (Rle_dec (Q2R x) 0.0031308) as [_|N]; [|lra]. apply within_ok in H. rewrite Q2R_mult in H. exact H.
    + apply qle_f in C. destruct (Rle_dec (Q2R x) 0.0031308) as [N|_]; [lra|]. apply curve_check_ok in H; [|lra]. destruct H as [_ H]. replace (5 / 12) with (/ 2.4) in H by lra. exact H.
  - eexists. split; [apply (proj2 bt709_x)|]. unfold encR. rewrite Rinv_inv. destruct (Qle_bool x 0.018) eqn:C.
    + apply qle_t in C. destruct (Rle_dec (Q2R x) 0.018) as [_|N]; [|lra]. apply within_ok in H. rewrite Q2R_mult in H. exact H.
    + apply qle_f in C. destruct (Rle_dec (Q2R x) 0.018) as [N|_]; [lra|]. apply curve_check_ok in H; [|lra]. destruct H as [_ H]. replace (9 / 20) with 0.45 in H by lra. exact H.
  - eexists. split; [apply (proj2 bt2020_x)|]. unfold encR'. rewrite Rinv_inv. destruct (Qle_bool 0.018 x) eqn:C.
    + apply qle_t in C. destruct (Rlt_dec (Q2R x) 0.018) as [N|_]; [lra|]. apply curve_check_ok in H; [|lra]. destruct H as [_ H]. replace (9 / 20) with 0.45 in H by lra. exact H.
    + apply qle_f in C. destruct (Rlt_dec (Q2R x) 0.018) as [_|N]; [|lra]. apply within_ok in H. rewrite Q2R_mult in H. exact H.
  - destruct (Qred g) as [[|q|q] p] eqn:G; try discriminate. assert (E : Q2R g = IZR (Zpos q) / IZR (Zpos p)) by (rewrite <- (Qeq_eqR _ _ (Qred_correct g)), G; reflexivity).
    assert (PQ : 0 < IZR (Zpos q)) by (apply IZR_lt; reflexivity). assert (PP : 0 < IZR (Zpos p)) by (apply IZR_lt; reflexivity). assert (E2 : / Q2R g = IZR (Zpos p) / IZR (Zpos q)) by (rewrite E; field; lra).
    apply root_check_ok in H. destruct H as [PX [L U]]. rewrite <- E2 in *. rewrite Q2R_minus in L. rewrite Q2R_plus in U.
    eexists. split; [|apply Rabs_le; split; [|]]. 1: { etransitivity; [apply (proj1 (powx g (Fin (Q2R x)) ltac:(rewrite E; apply Rgt_not_eq, Rdiv_lt_0_compat; assumption)))|apply rootx_pos, PX]. } all: lra.
  - eexists. split; [reflexivity|]. apply within_ok, H.
Qed.
Definition enc3 (k : kind) (tol : QArith_base.Q) (p r : QArith_base.Q * QArith_base.Q * QArith_base.Q) : bool := (enc_check k tol (fst (fst p)) (fst (fst r)) && enc_check k tol (snd (fst p)) (snd (fst r)) && enc_check k tol (snd p) (snd r))%bool.
Definition ref_kinds : list kind := [KSrgb; KBt709; KBt2020; KPow 2.6%Q; KLin; KLin; KPow 2.19921875%Q].
Definition coded : list (list (QArith_base.Q * QArith_base.Q * QArith_base.Q) * list (QArith_base.Q * QArith_base.Q * QArith_base.Q)) :=
  [(data_SRGB_LINEAR, data_SRGB_ENCODED); (data_ITUR_BT709_LINEAR, data_ITUR_BT709_ENCODED); (data_ITUR_BT2020_LINEAR, data_ITUR_BT2020_ENCODED); (data_DCI_P3_LINEAR, data_DCI_P3_ENCODED);
   (data_ACES_LINEAR, data_ACES_ENCODED); (data_ACES_CG_LINEAR, data_ACES_CG_ENCODED); (data_ADOBE_RGB_1998_LINEAR, data_ADOBE_RGB_1998_ENCODED)].
End E.
Lemma coded_check : Forall2 (fun k t => all2 (enc3 k (1 # 1000000000000000)) (fst t) (snd t) = true) ref_kinds coded.
Proof. unfold ref_kinds, coded. repeat apply Forall2_cons; [..|apply Forall2_nil]; vm_compute; reflexivity. Qed.
Section G.
Context {K : XConst}.
Lemma ref_acts : Forall2 (fun k o => forall s, o = Ret s -> acts s (kdec k) (kenc k)) ref_kinds (firstn 7 ref_spaces).
Proof.
  pose proof (all_act (O := xr_ops)) as A. unfold kinds, spaces in A. repeat match goal with H : Forall2 _ (_ :: _) _ |- _ => inversion H; clear H; subst end.
  unfold ref_kinds, ref_spaces. cbn [firstn]. repeat (apply Forall2_cons; [assumption|]). apply Forall2_nil.
Qed.
Theorem C101_encoded : XConstOk K -> Forall2 (fun o t => exists s, o = Ret s /\ Forall2 (fun p r => near_rgb (1 / 10 ^ 15) r (cs_encode s (ref_rgb p))) (fst t) (snd t)) (firstn 7 ref_spaces) coded.
Proof.
  intro OK. pose proof ref_acts as A. pose proof coded_check as C. pose proof (refs_described OK) as D.
  assert (R : Forall (fun o => exists s : color_space xr, o = Ret s) (firstn 7 ref_spaces)). { clear - D. unfold ref_spaces, qrefs in *. cbn [firstn]. repeat match goal with H : Forall2 _ (_ :: _) _ |- _ => inversion H; clear H; subst end. repeat (apply Forall_cons; [match goal with H : exists s, ?o = Ret s /\ _ |- exists s, ?o = Ret s => destruct H as (s & E & _); exists s; exact E end|]). apply Forall_nil. }
  clear D. revert A C R. generalize ref_kinds, coded, (firstn 7 ref_spaces). intros ks ts os A. revert ts. induction A as [|k o ks os A _ IH]; intros ts C R.
  - inversion C. constructor.
  - inversion C as [|? t ? ts' HC]; subst. inversion R as [|? ? (s & E)]; subst. constructor; [|apply IH; assumption]. exists s. split; [reflexivity|]. destruct (A s eq_refl) as [_ B].
    refine (f2_impl _ _ _ _ _ (all2_ok _ _ _ HC)). intros p r [_ N]. unfold enc3 in N. rewrite !andb_true_iff in N. destruct N as [[N1 N2] N3]. apply enc_check_ok in N1, N2, N3. rewrite tol15 in *.
    unfold cs_encode. rewrite B. exact (conj N1 (conj N2 N3)).
Qed.
End G.
