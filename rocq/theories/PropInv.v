(* C114: Matrix33::inverse in floating point *)
From Coq Require Import Reals ZArith QArith Qreals Lra Lia Bool List.
From Flocq Require Import Core BinarySingleNaN.
From Verif Require Import Outcome RealOps MathModel ColorModel XReal SpecLin MatProofs FloatInst FloatProofs ErrProofs CurveProofs PropDaylight PropCat.
From Verif Require PropInterp.
Import ListNotations.
Open Scope R_scope.
Local Notation f64 := (binary_float 53 1024).
Local Notation f32 := (binary_float 24 128).

Section Fmt.
Context (prec emax : Z) {Hp : Prec_gt_0 prec} {He : Prec_lt_emax prec emax}.
Notation fl := (binary_float prec emax).
Notation u := (bpow radix2 (- prec)).
Notation eta := (bpow radix2 (2 - emax - prec)).
Notation rnd := (round radix2 (SpecFloat.fexp prec emax) ZnearestE).
Context (P5 : (24 <= prec <= 53)%Z) (E5 : (128 <= emax)%Z) (E6 : (prec + 102 <= emax)%Z).
Context (L : libm fl) (lit : Q -> fl).
Notation ops := (b_ops prec emax L lit).

Lemma u_lo : / 9007199254740992 <= u.
Proof. change (/ 9007199254740992) with (bpow radix2 (-53)). apply bpow_le. lia. Qed.

Section Bounds.
Context (m : R) (M1 : 0.01 <= m <= 1000).
Notation A := (m * m).
Notation B := (m * m * m).
Lemma A_range : 0.0001 <= A <= 1000000.
Proof. split; [replace 0.0001 with (0.01 * 0.01) by lra|replace 1000000 with (1000 * 1000) by lra]; apply Rmult_le_compat; lra. Qed.
Lemma B_range : 0.000001 <= B <= 1000000000.
Proof. pose proof A_range. split; [replace 0.000001 with (0.0001 * 0.01) by lra|replace 1000000000 with (1000000 * 1000) by lra]; apply Rmult_le_compat; lra. Qed.

Lemma prod_close (a b : fl) : is_finite a = true -> is_finite b = true -> Rabs (B2R a) <= m -> Rabs (B2R b) <= m ->
  is_finite (Bmult mode_NE a b) = true /\ Rabs (B2R (Bmult mode_NE a b) - B2R a * B2R b) <= 1.001 * A * u /\ Rabs (B2R a * B2R b) <= A.
Proof.
  intros Fa Fb Ha Hb. pose proof A_range as AR. destruct (CurveProofs.u24 prec ltac:(lia)) as [U0 U]. destruct (CurveProofs.eta_le prec emax E5) as [T0 T]. pose proof vast_val as VV.
  assert (P : Rabs (B2R a * B2R b) <= A) by (rewrite Rabs_mult; apply Rmult_le_compat; try apply Rabs_pos; assumption).
  destruct (gmul prec emax ltac:(lia) E5 a b Fa Fb) as [F H]; [lra|]. split; [exact F|]. split; [|exact P]. assert (u * Rabs (B2R a * B2R b) <= u * A) by (apply Rmult_le_compat_l; lra). assert (0.0001 * u <= A * u) by (apply Rmult_le_compat_r; lra). lra.
Qed.
Lemma cof_close (a b c d : fl) : is_finite a = true -> is_finite b = true -> is_finite c = true -> is_finite d = true -> Rabs (B2R a) <= m -> Rabs (B2R b) <= m -> Rabs (B2R c) <= m -> Rabs (B2R d) <= m ->
  is_finite (Bminus mode_NE (Bmult mode_NE a b) (Bmult mode_NE c d)) = true
  /\ Rabs (B2R (Bminus mode_NE (Bmult mode_NE a b) (Bmult mode_NE c d)) - (B2R a * B2R b - B2R c * B2R d)) <= 4.01 * A * u /\ Rabs (B2R a * B2R b - B2R c * B2R d) <= 2 * A.
Proof.
  intros Fa Fb Fc Fd Ha Hb Hc Hd. pose proof A_range as AR. destruct (CurveProofs.u24 prec ltac:(lia)) as [U0 U]. pose proof vast_val as VV.
  destruct (prod_close a b Fa Fb Ha Hb) as (F1 & E1 & S1). destruct (prod_close c d Fc Fd Hc Hd) as (F2 & E2 & S2). set (p := Bmult mode_NE a b) in *. set (q := Bmult mode_NE c d) in *. set (P := B2R a * B2R b) in *. set (Q' := B2R c * B2R d) in *.
  assert (AU : 0 <= A * u <= 0.0000001 * A). { split; [apply Rmult_le_pos; lra|]. rewrite Rmult_comm. apply Rmult_le_compat_r; lra. }
  apply Rabs_le_inv in E1, E2, S1, S2. assert (S : Rabs (P - Q') <= 2 * A) by (apply Rabs_le; lra). assert (D : Rabs (B2R p - B2R q) <= 2.001 * A) by (apply Rabs_le; lra).
  destruct (gminus prec emax ltac:(lia) E5 p q F1 F2) as [F H]; [lra|]. split; [exact F|]. split; [|exact S]. assert (UD : u * Rabs (B2R p - B2R q) <= u * (2.001 * A)) by (apply Rmult_le_compat_l; lra). apply Rabs_le_inv in H. apply Rabs_le. lra.
Qed.
Lemma term_close (a v : fl) V : is_finite a = true -> Rabs (B2R a) <= m -> is_finite v = true -> Rabs (B2R v - V) <= 4.01 * A * u -> Rabs V <= 2 * A ->
  is_finite (Bmult mode_NE a v) = true /\ Rabs (B2R (Bmult mode_NE a v) - B2R a * V) <= 6.02 * B * u /\ Rabs (B2R a * V) <= 2 * B.
Proof.
  intros Fa Ha Fv Ev Sv. pose proof A_range as AR. pose proof B_range as BR. destruct (CurveProofs.u24 prec ltac:(lia)) as [U0 U]. destruct (CurveProofs.eta_le prec emax E5) as [T0 T]. pose proof vast_val as VV.
  assert (AU : 0 <= A * u <= 0.0000001 * A). { split; [apply Rmult_le_pos; lra|]. rewrite Rmult_comm. apply Rmult_le_compat_r; lra. }
  assert (VB : Rabs (B2R v) <= 2.001 * A). { replace (B2R v) with ((B2R v - V) + V) by ring. eapply Rle_trans; [apply Rabs_triang|]. lra. }
  assert (S : Rabs (B2R a * V) <= 2 * B). { rewrite Rabs_mult. replace (2 * B) with (m * (2 * A)) by ring. apply Rmult_le_compat; try apply Rabs_pos; assumption. }
  assert (PB : Rabs (B2R a * B2R v) <= 2.001 * B). { rewrite Rabs_mult. replace (2.001 * B) with (m * (2.001 * A)) by ring. apply Rmult_le_compat; try apply Rabs_pos; assumption. }
  destruct (gmul prec emax ltac:(lia) E5 a v Fa Fv) as [F H]; [lra|]. split; [exact F|]. split; [|exact S].
  assert (D : Rabs (B2R a * B2R v - B2R a * V) <= 4.01 * B * u). { replace (B2R a * B2R v - B2R a * V) with (B2R a * (B2R v - V)) by ring. rewrite Rabs_mult. replace (4.01 * B * u) with (m * (4.01 * A * u)) by ring. apply Rmult_le_compat; try apply Rabs_pos; assumption. }
  assert (UD : u * Rabs (B2R a * B2R v) <= u * (2.001 * B)) by (apply Rmult_le_compat_l; lra). assert (0.000001 * u <= B * u) by (apply Rmult_le_compat_r; lra). apply Rabs_le_inv in H, D. apply Rabs_le. lra.
Qed.
Lemma sum_close (p q r : fl) P Q' R' : is_finite p = true -> is_finite q = true -> is_finite r = true -> Rabs (B2R p - P) <= 6.02 * B * u -> Rabs (B2R q - Q') <= 6.02 * B * u -> Rabs (B2R r - R') <= 6.02 * B * u -> Rabs P <= 2 * B -> Rabs Q' <= 2 * B -> Rabs R' <= 2 * B ->
  is_finite (Bplus mode_NE (Bplus mode_NE p q) r) = true /\ Rabs (B2R (Bplus mode_NE (Bplus mode_NE p q) r) - (P + Q' + R')) <= 28.1 * B * u /\ Rabs (P + Q' + R') <= 6 * B.
Proof.
  intros Fp Fq Fr Ep Eq Er Sp Sq Sr. pose proof B_range as BR. destruct (CurveProofs.u24 prec ltac:(lia)) as [U0 U]. pose proof vast_val as VV.
  assert (BU : 0 <= B * u <= 0.0000001 * B). { split; [apply Rmult_le_pos; lra|]. rewrite Rmult_comm. apply Rmult_le_compat_r; lra. }
  apply Rabs_le_inv in Ep, Eq, Er, Sp, Sq, Sr. assert (D1 : Rabs (B2R p + B2R q) <= 4.001 * B) by (apply Rabs_le; lra). destruct (gplus prec emax ltac:(lia) E5 p q Fp Fq) as [F1 H1]; [lra|]. set (t := Bplus mode_NE p q) in *.
  assert (U1 : u * Rabs (B2R p + B2R q) <= u * (4.001 * B)) by (apply Rmult_le_compat_l; lra). apply Rabs_le_inv in H1. assert (D2 : Rabs (B2R t + B2R r) <= 6.001 * B) by (apply Rabs_le; lra).
  destruct (gplus prec emax ltac:(lia) E5 t r F1 Fr) as [F2 H2]; [lra|]. assert (U2 : u * Rabs (B2R t + B2R r) <= u * (6.001 * B)) by (apply Rmult_le_compat_l; lra). apply Rabs_le_inv in H2. split; [exact F2|]. split; apply Rabs_le; lra.
Qed.
Context (del : R) (DL : 57 * B * u <= del).
Lemma del_pos : 0 < del.
Proof. pose proof B_range as BR. destruct (CurveProofs.u24 prec ltac:(lia)) as [U0 U]. assert (0 < B * u) by (apply Rmult_lt_0_compat; lra). lra. Qed.
Lemma det_away (r : fl) D : Rabs (B2R r - D) <= 28.1 * B * u -> del <= Rabs D -> 0.507 * del <= Rabs (B2R r).
Proof.
  intros H DD. pose proof del_pos. assert (Rabs D <= Rabs (B2R r) + Rabs (B2R r - D)). { replace D with (B2R r + - (B2R r - D)) at 1 by ring. eapply Rle_trans; [apply Rabs_triang|]. rewrite Rabs_Ropp. lra. } lra.
Qed.
Definition E0 : R := 13 * A / del + 113 * (A * B) / (del * del).
Lemma quot_close (e r : fl) E D : is_finite e = true -> Rabs (B2R e - E) <= 4.01 * A * u -> Rabs E <= 2 * A -> Rabs (B2R r - D) <= 28.1 * B * u -> del <= Rabs D <= 6 * B ->
  is_finite (Bdiv mode_NE e r) = true /\ Rabs (B2R (Bdiv mode_NE e r) - E / D) <= E0 * u.
Proof.
  intros Fe Ee Se Er [DD DU]. pose proof del_pos as D0. pose proof (det_away r D Er DD) as RA. pose proof A_range as AR. pose proof B_range as BR. destruct (CurveProofs.u24 prec ltac:(lia)) as [U0 U]. destruct (CurveProofs.eta_le prec emax E5) as [T0 T]. pose proof vast_val as VV. pose proof u_lo as UL.
  assert (AU : 0 <= A * u <= 0.0000001 * A). { split; [apply Rmult_le_pos; lra|]. rewrite Rmult_comm. apply Rmult_le_compat_r; lra. }
  assert (I0 : 0 < / del) by (apply Rinv_0_lt_compat; exact D0). set (i := / del) in *. assert (ID : i * del = 1) by (unfold i; field; lra).
  assert (RN : B2R r <> 0) by (intro Z0; rewrite Z0, Rabs_R0 in RA; lra). assert (DN : D <> 0) by (intro Z0; rewrite Z0, Rabs_R0 in DD; lra).
  assert (IR : / Rabs (B2R r) <= 1.973 * i). { apply (Rmult_le_reg_r (Rabs (B2R r))); [lra|]. rewrite Rinv_l by lra. assert (1.973 * i * (0.507 * del) <= 1.973 * i * Rabs (B2R r)) by (apply Rmult_le_compat_l; lra). replace (1.973 * i * (0.507 * del)) with (1.973 * 0.507 * (i * del)) in H by ring. rewrite ID in H. lra. }
  assert (IR0 : 0 < / Rabs (B2R r)) by (apply Rinv_0_lt_compat; lra).
  assert (QB : Rabs (E / D) <= 2 * A * i). { unfold Rdiv. rewrite Rabs_mult, Rabs_inv. assert (/ Rabs D <= i) by (unfold i; apply Rinv_le_contravar; lra). apply Rmult_le_compat; try lra; try apply Rabs_pos. apply Rlt_le, Rinv_0_lt_compat. lra. }
  assert (EB : Rabs (B2R e) <= 2.001 * A). { replace (B2R e) with ((B2R e - E) + E) by ring. eapply Rle_trans; [apply Rabs_triang|]. lra. }
  assert (QF : Rabs (B2R e / B2R r) <= 3.95 * (A * i)). { unfold Rdiv. rewrite Rabs_mult, Rabs_inv. eapply Rle_trans; [apply (Rmult_le_compat _ (2.001 * A) _ (1.973 * i)); try lra; apply Rabs_pos|]. replace (2.001 * A * (1.973 * i)) with (2.001 * 1.973 * (A * i)) by ring. apply Rmult_le_compat_r; [apply Rmult_le_pos; lra|lra]. }
  assert (D1 : Rabs (B2R e / B2R r - E / D) <= (7.92 * (A * i) + 110.9 * (A * B * (i * i))) * u).
  { replace (B2R e / B2R r - E / D) with (((B2R e - E) - E / D * (B2R r - D)) * / B2R r) by (field; split; assumption). rewrite Rabs_mult, Rabs_inv.
    assert (N : Rabs (B2R e - E - E / D * (B2R r - D)) <= 4.01 * A * u + 2 * A * i * (28.1 * B * u)). { eapply Rle_trans; [apply Rabs_triang|]. rewrite Rabs_Ropp, Rabs_mult. apply Rplus_le_compat; [exact Ee|]. apply Rmult_le_compat; try apply Rabs_pos; assumption. }
    eapply Rle_trans; [apply (Rmult_le_compat _ _ _ (1.973 * i) (Rabs_pos _) (Rlt_le _ _ IR0) N IR)|]. replace ((4.01 * A * u + 2 * A * i * (28.1 * B * u)) * (1.973 * i)) with (4.01 * 1.973 * (A * i * u) + 56.2 * 1.973 * (A * B * (i * i) * u)) by lra.
    assert (0 <= A * i * u) by (apply Rmult_le_pos; [apply Rmult_le_pos; lra|lra]). assert (0 <= A * B * (i * i) * u) by (apply Rmult_le_pos; [apply Rmult_le_pos; apply Rmult_le_pos; lra|lra]). lra. }
  assert (AI : 0 <= A * i) by (apply Rmult_le_pos; lra).
  assert (MI : m * (57 * (A * i) * u) <= 1). { replace (m * (57 * (A * i) * u)) with (57 * B * u * i) by ring. rewrite <- ID. rewrite (Rmult_comm i del). apply Rmult_le_compat_r; lra. }
  assert (VA : Rabs (B2R e / B2R r) <= 1152921504606846976). { assert (0.01 * (57 * (A * i) * u) <= 1). { assert (0.01 * (57 * (A * i) * u) <= m * (57 * (A * i) * u)) by (apply Rmult_le_compat_r; [apply Rmult_le_pos; lra|lra]). lra. } assert (A * i * / 9007199254740992 <= A * i * u) by (apply Rmult_le_compat_l; lra). lra. }
  destruct (gdiv prec emax ltac:(lia) E5 e r Fe RN VA) as [F H]. split; [exact F|]. assert (UQ : u * Rabs (B2R e / B2R r) <= u * (3.95 * (A * i))) by (apply Rmult_le_compat_l; lra).
  assert (AL : / 6000 <= A * i). { assert (del <= 6 * B) by lra. assert (i * del <= i * (6 * B)) by (apply Rmult_le_compat_l; lra). rewrite ID in H1. replace (i * (6 * B)) with (A * i * (6 * m)) in H1 by ring. assert (A * i * (6 * m) <= A * i * 6000) by (apply Rmult_le_compat_l; lra). lra. }
  assert (EL : eta <= 0.01 * (A * i) * u) by (assert (/ 6000 * u <= A * i * u) by (apply Rmult_le_compat_r; lra); lra).
  assert (0 <= A * B * (i * i) * u) by (apply Rmult_le_pos; [apply Rmult_le_pos; apply Rmult_le_pos; lra|lra]). assert (0 <= A * i * u) by (apply Rmult_le_pos; lra).
  replace (E0 * u) with (13 * (A * i) * u + 113 * (A * B * (i * i)) * u) by (unfold E0, i; field; lra).
  replace (B2R (Bdiv mode_NE e r) - E / D) with ((B2R (Bdiv mode_NE e r) - B2R e / B2R r) + (B2R e / B2R r - E / D)) by ring. eapply Rle_trans; [apply Rabs_triang|]. lra.
Qed.
End Bounds.

(* ---- the matrix ---- *)
Definition mR (a : mat33 fl) : RM := map9 B2R a.
Definition tame9 (m : R) (a : mat33 fl) : Prop := all9 (fun x => is_finite x = true /\ Rabs (B2R x) <= m) a.
(* the last column is not (0, 0, 1) up to rounding: the branch for general matrices is taken *)
Definition not_affine (a : mat33 fl) : Prop := 2 * u < B2R (mx2 a) \/ 2 * u < B2R (mx5 a) \/ 4 * u <= Rabs (B2R (mx8 a) - 1).
Notation bm := (Bmult mode_NE).
Notation bs := (Bminus mode_NE).
Notation bp := (Bplus mode_NE).
Notation cf a b c d := (bs (bm a b) (bm c d)).
Lemma inverse_eq (a b c d e f g h i : fl) : @inv_general _ ops (Mat33 a b c d e f g h i) = true -> @mat_inverse _ ops (Mat33 a b c d e f g h i) =
  @inv_scale _ ops (bp (bp (bm a (cf e i h f)) (bm b (cf g f d i))) (bm c (cf d h g e)))
    (Mat33 (cf e i h f) (cf h c b i) (cf b f e c) (cf g f d i) (cf a i g c) (cf d c a f) (cf d h g e) (cf g b a h) (cf a e d b)).
Proof. intro H. unfold mat_inverse. rewrite H. reflexivity. Qed.
Lemma eps_val : is_finite (@repsilon _ ops) = true /\ B2R (@repsilon _ ops) = 2 * u.
Proof. destruct (PropInterp.pow2_at prec emax (1 - prec) ltac:(lia)) as [F V]. split; [exact F|]. change (B2R (binary_normalize prec emax Hp He mode_NE 1 (1 - prec) false) = 2 * u). rewrite V. replace (1 - prec)%Z with (1 + - prec)%Z by ring. rewrite bpow_plus. reflexivity. Qed.
Lemma general_float m a : 0.01 <= m <= 1000 -> tame9 m a -> not_affine a -> @inv_general _ ops a = true.
Proof.
  intros M1 T N. destruct a as [a b c d e f g h i]. destruct T as (_ & _ & [Fc Hc] & _ & _ & [Ff Hf] & _ & _ & [Fi Hi]). unfold not_affine in N. cbn [mx2 mx5 mx8] in N. unfold inv_general, mget. cbn [Nat.mul Nat.add mat_nth mx2 mx5 mx8].
  destruct eps_val as [FE VE]. change (@rlt _ ops) with (@Bltb prec emax). change (@rabs _ ops) with (@Babs prec emax). change (@rsub _ ops) with (@Bminus prec emax Hp He mode_NE). rewrite !orb_true_iff. destruct (CurveProofs.u24 prec ltac:(lia)) as [U0 U]. pose proof vast_val as VV.
  assert (F1 : is_finite (@rone _ ops) = true) by apply is_finite_Bone. assert (V1 : B2R (@rone _ ops) = 1) by apply Bone_correct.
  destruct N as [N|[N|N]].
  - left. left. rewrite Bltb_correct by assumption. rewrite VE. apply Rlt_bool_true. exact N.
  - left. right. rewrite Bltb_correct by assumption. rewrite VE. apply Rlt_bool_true. exact N.
  - right. apply Rabs_le_inv in Hi. assert (S1 : Rabs (B2R i - B2R (@rone _ ops)) <= 1001) by (rewrite V1; apply Rabs_le; lra). destruct (gminus prec emax ltac:(lia) E5 i (@rone _ ops) Fi F1) as [F H]; [lra|]. rewrite V1 in H.
    rewrite Bltb_correct by (try rewrite is_finite_Babs; assumption). rewrite VE, B2R_Babs. apply Rlt_bool_true. set (x := B2R (bs i (@rone _ ops))) in *. set (y := B2R i - 1) in *.
    assert (Rabs y <= Rabs x + Rabs (x - y)). { replace y with (x + - (x - y)) at 1 by ring. eapply Rle_trans; [apply Rabs_triang|]. rewrite Rabs_Ropp. lra. } assert (u * Rabs y <= 0.0000001 * Rabs y) by (apply Rmult_le_compat_r; [apply Rabs_pos|lra]). lra.
Qed.
(* the test against overflow passes *)
Lemma scale_float (r : fl) (s : mat33 fl) : is_finite r = true -> 0.0000285 * u <= Rabs (B2R r) -> all9 (fun x => is_finite x = true /\ Rabs (B2R x) <= 3000000) s -> @inv_scale _ ops r s = Some (map9 (fun e => Bdiv mode_NE e r) s).
Proof.
  intros Fr Hr HS. unfold inv_scale. assert (EM : @mat_map _ (fun e => @rdiv _ ops e r) s = map9 (fun e => Bdiv mode_NE e r) s) by (destruct s; reflexivity). rewrite EM. change (@rle _ ops) with (@Bleb prec emax). change (@rabs _ ops) with (@Babs prec emax). change (@rlt _ ops) with (@Bltb prec emax). change (@rdiv _ ops) with (@Bdiv prec emax Hp He mode_NE).
  assert (F1 : is_finite (@rone _ ops) = true) by apply is_finite_Bone. assert (V1 : B2R (@rone _ ops) = 1) by apply Bone_correct. rewrite Bleb_correct by (try rewrite is_finite_Babs; assumption). rewrite V1, B2R_Babs. case Rle_bool_spec; intro C; [reflexivity|].
  destruct (CurveProofs.u24 prec ltac:(lia)) as [U0 U]. destruct (CurveProofs.eta_le prec emax E5) as [T0 T].
  destruct (PropInterp.pow2_at prec emax (2 - emax) ltac:(lia)) as [FP VP]. change (@rmin_positive _ ops) with (binary_normalize prec emax Hp He mode_NE 1 (2 - emax) false). set (mp := binary_normalize prec emax Hp He mode_NE 1 (2 - emax) false) in *.
  assert (X : B2R (Babs r) / B2R mp = Rabs (B2R r) * bpow radix2 (emax - 2)). { rewrite B2R_Babs, VP. unfold Rdiv. f_equal. rewrite <- bpow_opp. f_equal. ring. }
  assert (W : u * bpow radix2 (emax - 2) >= 1267650600228229401496703205376). { rewrite <- bpow_plus. apply Rle_ge. change 1267650600228229401496703205376 with (bpow radix2 100). apply bpow_le. lia. }
  set (w := bpow radix2 (emax - 2)) in *. assert (W0 : 0 < w) by apply bpow_gt_0. assert (WE : bpow radix2 emax = 4 * w). { unfold w. replace emax with (2 + (emax - 2))%Z at 1 by ring. rewrite bpow_plus. reflexivity. }
  assert (XL : 36000000000000000000000000 <= Rabs (B2R r) * w). { assert (0.0000285 * u * w <= Rabs (B2R r) * w) by (apply Rmult_le_compat_r; lra). lra. } assert (XU : Rabs (B2R r) * w <= w) by (assert (Rabs (B2R r) * w <= 1 * w) by (apply Rmult_le_compat_r; lra); lra). set (x := Rabs (B2R r) * w) in *.
  pose proof (rnd_any prec emax x) as RX. rewrite (Rabs_pos_eq x) in RX by lra. assert (UX : u * x <= 0.0000001 * x) by (apply Rmult_le_compat_r; lra). apply Rabs_le_inv in RX.
  destruct (fdiv prec emax (Babs r) mp) as [F V]; [rewrite is_finite_Babs; exact Fr|rewrite VP; apply Rgt_not_eq, bpow_gt_0|rewrite X, WE; apply Rabs_def1; lra|]. rewrite X in V. fold x in V.
  assert (BIG : 1000000000 <= B2R (Bdiv mode_NE (Babs r) mp)) by (rewrite V; lra). set (q := Bdiv mode_NE (Babs r) mp) in *. clearbody q. clear - HS BIG F.
  assert (LT : forall e : fl, is_finite e = true /\ Rabs (B2R e) <= 3000000 -> Bltb (Babs e) q = true) by (intros e [Fe He']; rewrite Bltb_correct by (try rewrite is_finite_Babs; assumption); rewrite B2R_Babs; apply Rlt_bool_true; lra).
  destruct s. cbn [all9] in HS. destruct HS as (A0 & A1 & A2 & A3 & A4 & A5 & A6 & A7 & A8). unfold mat_list. cbn [forallb MathModel.mx0 MathModel.mx1 MathModel.mx2 MathModel.mx3 MathModel.mx4 MathModel.mx5 MathModel.mx6 MathModel.mx7 MathModel.mx8]. rewrite !LT by assumption. reflexivity.
Qed.

Definition near_inverse (m del : R) (n : mat33 fl) (a : mat33 fl) : Prop :=
  on9 (fun _ v V => is_finite v = true /\ Rabs (B2R v - V) <= (13 * m ^ 2 / del + 113 * m ^ 5 / del ^ 2) * u) n n (minv (mR a)).
Lemma inverse_close m del a : 0.01 <= m <= 1000 -> tame9 m a -> not_affine a -> 57 * m ^ 3 * u <= del -> del <= Rabs (mdet (mR a)) -> exists n, @mat_inverse _ ops a = Some n /\ near_inverse m del n a.
Proof.
  intros M1 T N DL DD. pose proof (general_float m a M1 T N) as G. assert (DL' : 57 * (m * m * m) * u <= del) by (replace (m * m * m) with (m ^ 3) by ring; exact DL). pose proof (del_pos m M1 del DL') as D0. assert (EE : E0 m del = 13 * m ^ 2 / del + 113 * m ^ 5 / del ^ 2) by (unfold E0; field; lra).
  destruct a as [a b c d e f g h i]. destruct T as ([Fa Ha] & [Fb Hb] & [Fc Hc] & [Fd Hd] & [Fe He'] & [Ff Hf] & [Fg Hg] & [Fh Hh] & [Fi Hi]).
  rewrite (inverse_eq _ _ _ _ _ _ _ _ _ G).
  destruct (cof_close m M1 e i h f) as (G0 & C0 & S0); try assumption. destruct (cof_close m M1 h c b i) as (G1 & C1 & S1); try assumption. destruct (cof_close m M1 b f e c) as (G2 & C2 & S2); try assumption.
  destruct (cof_close m M1 g f d i) as (G3 & C3 & S3); try assumption. destruct (cof_close m M1 a i g c) as (G4 & C4 & S4); try assumption. destruct (cof_close m M1 d c a f) as (G5 & C5 & S5); try assumption.
  destruct (cof_close m M1 d h g e) as (G6 & C6 & S6); try assumption. destruct (cof_close m M1 g b a h) as (G7 & C7 & S7); try assumption. destruct (cof_close m M1 a e d b) as (G8 & C8 & S8); try assumption.
  destruct (term_close m M1 a _ _ Fa Ha G0 C0 S0) as (K0 & J0 & I0). destruct (term_close m M1 b _ _ Fb Hb G3 C3 S3) as (K1 & J1 & I1). destruct (term_close m M1 c _ _ Fc Hc G6 C6 S6) as (K2 & J2 & I2).
  destruct (sum_close m M1 _ _ _ _ _ _ K0 K1 K2 J0 J1 J2 I0 I1 I2) as (FR & ER & SR). set (r := bp (bp _ _) _) in *.
  assert (ED : B2R a * (B2R e * B2R i - B2R h * B2R f) + B2R b * (B2R g * B2R f - B2R d * B2R i) + B2R c * (B2R d * B2R h - B2R g * B2R e) = mdet (mR (Mat33 a b c d e f g h i))) by (unfold mR; cbn [map9 mdet]; ring). rewrite ED in ER, SR. set (D := mdet _) in *.
  pose proof (det_away m M1 del DL' r D ER DD) as RA. destruct (CurveProofs.u24 prec ltac:(lia)) as [U0 U]. pose proof (A_range m M1) as AR. pose proof (B_range m M1) as BR.
  assert (RB : 0.0000285 * u <= Rabs (B2R r)). { assert (0.000001 * u <= m * m * m * u) by (apply Rmult_le_compat_r; lra). lra. }
  assert (AU : 0 <= m * m * u <= 0.0000001 * (m * m)). { split; [apply Rmult_le_pos; lra|]. rewrite Rmult_comm. apply Rmult_le_compat_r; lra. }
  assert (BB : forall v V, Rabs (B2R v - V) <= 4.01 * (m * m) * u -> Rabs V <= 2 * (m * m) -> Rabs (@B2R prec emax v) <= 3000000). { intros v V H1 H2. replace (B2R v) with ((B2R v - V) + V) by ring. eapply Rle_trans; [apply Rabs_triang|]. lra. }
  rewrite (scale_float r _ FR RB).
  2: { cbn [all9]. repeat split; try assumption; eapply BB; eassumption. }
  eexists. split; [reflexivity|]. unfold near_inverse. rewrite <- EE. unfold minv. fold D. unfold mR. cbn [map9 on9 madj mscale]. clearbody r. clear ED.
  assert (QC : forall v V W, is_finite v = true -> Rabs (B2R v - V) <= 4.01 * (m * m) * u -> Rabs V <= 2 * (m * m) -> / D * W = V / D -> is_finite (Bdiv mode_NE v r) = true /\ Rabs (B2R (Bdiv mode_NE v r) - / D * W) <= E0 m del * u).
  { intros v V W Fv Hv Sv EW. rewrite EW. apply quot_close; try assumption. split; assumption. }
  refine (conj _ (conj _ (conj _ (conj _ (conj _ (conj _ (conj _ (conj _ _)))))))); eapply QC; try eassumption; unfold Rdiv; ring.
Qed.
(* the returned matrix, multiplied exactly with the given one, is nearly the identity *)
Definition near_one (e : R) (p : RM) : Prop := on9 (fun _ x y => Rabs (x - y) <= e * u) p p mone.
Lemma residual m e n a N : 0 <= m -> tame9 m a -> mmul N (mR a) = mone -> on9 (fun _ v V => is_finite v = true /\ Rabs (B2R v - V) <= e * u) n n N -> near_one (3 * m * e) (mmul (mR n) (mR a)).
Proof.
  intros M0 T ON H. unfold near_one. rewrite <- ON. destruct n as [n0 n1 n2 n3 n4 n5 n6 n7 n8], a as [a0 a1 a2 a3 a4 a5 a6 a7 a8], N as [p0 p1 p2 p3 p4 p5 p6 p7 p8]. cbn [on9] in H. destruct H as ([_ H0] & [_ H1] & [_ H2] & [_ H3] & [_ H4] & [_ H5] & [_ H6] & [_ H7] & [_ H8]). destruct T as ([_ A0] & [_ A1] & [_ A2] & [_ A3] & [_ A4] & [_ A5] & [_ A6] & [_ A7] & [_ A8]).
  assert (R1 : forall x y z x' y' z' a b c, Rabs (x - x') <= e * u -> Rabs (y - y') <= e * u -> Rabs (z - z') <= e * u -> Rabs a <= m -> Rabs b <= m -> Rabs c <= m -> Rabs (x * a + y * b + z * c - (x' * a + y' * b + z' * c)) <= 3 * m * e * u).
  { intros x y z x' y' z' a b c X Y Z' A B C. replace (x * a + y * b + z * c - (x' * a + y' * b + z' * c)) with ((x - x') * a + (y - y') * b + (z - z') * c) by ring.
    eapply Rle_trans; [apply Rabs_triang|]. eapply Rle_trans; [apply Rplus_le_compat_r, Rabs_triang|]. rewrite !Rabs_mult. assert (Rabs (x - x') * Rabs a <= e * u * m) by (apply Rmult_le_compat; try apply Rabs_pos; assumption). assert (Rabs (y - y') * Rabs b <= e * u * m) by (apply Rmult_le_compat; try apply Rabs_pos; assumption). assert (Rabs (z - z') * Rabs c <= e * u * m) by (apply Rmult_le_compat; try apply Rabs_pos; assumption). lra. }
  unfold mR. cbn [map9 mmul on9]. refine (conj _ (conj _ (conj _ (conj _ (conj _ (conj _ (conj _ (conj _ _)))))))); apply R1; assumption.
Qed.
Definition good_inverse (Op : RealOps fl) : Prop := forall (m del : R) (a : mat33 fl), 0.01 <= m <= 1000 -> tame9 m a -> not_affine a -> 57 * m ^ 3 * u <= del -> del <= Rabs (mdet (mR a)) ->
  exists n, @mat_inverse _ Op a = Some n /\ near_inverse m del n a /\ near_one (3 * m * (13 * m ^ 2 / del + 113 * m ^ 5 / del ^ 2)) (mmul (mR n) (mR a)).
Lemma good_inverse_ok : good_inverse ops.
Proof.
  intros m del a M1 T N DL DD. destruct (inverse_close m del a M1 T N DL DD) as (n & E & H). exists n. split; [exact E|]. split; [exact H|]. apply (residual m _ n a (minv (mR a))); [lra|exact T| |exact H]. apply minv_l. intro Z0. rewrite Z0, Rabs_R0 in DD. assert (DL' : 57 * (m * m * m) * u <= del) by (replace (m * m * m) with (m ^ 3) by ring; exact DL). pose proof (del_pos m M1 del DL'). lra.
Qed.
End Fmt.

Theorem C114_inverse_f32 : forall L : libm f32, good_inverse 24 128 (f32_ops L).
Proof. intro L. apply good_inverse_ok; lia. Qed.
Print Assumptions C114_inverse_f32.
Theorem C114_inverse_f64 : forall L : libm f64, good_inverse 53 1024 (f64_ops L).
Proof. intro L. apply good_inverse_ok; lia. Qed.
Print Assumptions C114_inverse_f64.

(* some bound on the determinant is needed: an invertible matrix that is refused although exact arithmetic inverts it *)
Local Notation pow k := (binary_normalize 24 128 eq_refl eq_refl mode_NE 1 k false).
Theorem C114_small_determinant_refuted : exists a : mat33 f32, tame9 24 128 1 a /\ not_affine 24 128 a /\ mdet (mR 24 128 a) <> 0 /\ (forall L : libm f32, @mat_inverse _ (f32_ops L) a = None) /\
  all9 (fun x => Rabs x <= bpow radix2 60) (minv (mR 24 128 a)).
Proof.
  destruct (PropInterp.pow2_at 24 128 (-60) ltac:(lia)) as [F V]. set (x := pow (-60)). assert (FX : is_finite x = true) by exact F. assert (VX : B2R x = bpow radix2 (-60)) by exact V. set (z := (B754_zero false : f32)). assert (X1 : bpow radix2 (-60) = / 1152921504606846976) by reflexivity. rewrite X1 in VX.
  exists (Mat33 x z z z x z z z x). assert (DT : mdet (mR 24 128 (Mat33 x z z z x z z z x)) = (/ 1152921504606846976) ^ 3) by (unfold mR; cbn [map9 mdet z B2R]; rewrite VX; ring).
  split; [|split; [|split; [|split]]].
  - unfold tame9. cbn [all9]. rewrite VX. repeat split; try exact FX; try reflexivity; unfold z; cbn [B2R]; rewrite ?Rabs_R0, ?Rabs_pos_eq; lra.
  - right. right. cbn [mx8]. rewrite VX, Rabs_left; change (bpow radix2 (- (24))) with (/ 16777216); lra.
  - rewrite DT. apply pow_nonzero. lra.
  - intro L. vm_compute. reflexivity.
  - unfold minv. rewrite DT. unfold mR. cbn [map9 mscale madj all9 z B2R]. rewrite VX. change (bpow radix2 60) with 1152921504606846976.
    assert (Q0 : Rabs (/ (/ 1152921504606846976) ^ 3 * (/ 1152921504606846976 * / 1152921504606846976 - 0 * 0)) <= 1152921504606846976) by (replace (/ (/ 1152921504606846976) ^ 3 * (/ 1152921504606846976 * / 1152921504606846976 - 0 * 0)) with 1152921504606846976 by (field); rewrite Rabs_pos_eq; lra).
    assert (Q1 : forall y, y = 0 -> Rabs (/ (/ 1152921504606846976) ^ 3 * y) <= 1152921504606846976) by (intros y ->; rewrite Rmult_0_r, Rabs_R0; lra).
    refine (conj Q0 (conj _ (conj _ (conj _ (conj Q0 (conj _ (conj _ (conj _ Q0)))))))); apply Q1; ring.
Qed.
Print Assumptions C114_small_determinant_refuted.

(* (2 1 1) (1 3 1) (1 1 4) with determinant 17: bound 413 half-units, the first entry is 11/17 rounded *)
Local Notation single q := (f64_to_f32 (b_of_Q 53 1024 q)).
Definition inv_ex : mat33 f32 := Mat33 (single 2) (single 1) (single 1) (single 1) (single 3) (single 1) (single 1) (single 1) (single 4).
Example C114_example : tame9 24 128 4 inv_ex /\ not_affine 24 128 inv_ex /\ mdet (mR 24 128 inv_ex) = 17 /\ forall L : libm f32, exists n, @mat_inverse _ (f32_ops L) inv_ex = Some n /\ Rabs (B2R (mx0 n) - 11 / 17) <= 413 * bpow radix2 (-24).
Proof.
  assert (V1 : is_finite (single 1) = true /\ B2R (single 1) = 1) by by_sf. assert (V2 : is_finite (single 2) = true /\ B2R (single 2) = 2) by by_sf. assert (V3 : is_finite (single 3) = true /\ B2R (single 3) = 3) by by_sf. assert (V4 : is_finite (single 4) = true /\ B2R (single 4) = 4) by by_sf.
  destruct V1 as [F1 V1], V2 as [F2 V2], V3 as [F3 V3], V4 as [F4 V4].
  assert (EM : mR 24 128 inv_ex = Mat33 2 1 1 1 3 1 1 1 4) by (unfold mR, inv_ex; cbn [map9]; rewrite V1, V2, V3, V4; reflexivity).
  assert (T : tame9 24 128 4 inv_ex) by (unfold tame9, inv_ex; cbn [all9]; rewrite V1, V2, V3, V4; repeat split; try assumption; rewrite Rabs_pos_eq; lra).
  assert (N : not_affine 24 128 inv_ex) by (left; unfold inv_ex; cbn [mx2]; rewrite V1; change (bpow radix2 (- (24))) with (/ 16777216); lra).
  assert (D : mdet (mR 24 128 inv_ex) = 17) by (rewrite EM; cbn [mdet]; ring). split; [exact T|]. split; [exact N|]. split; [exact D|]. intro L.
  destruct (C114_inverse_f32 L 4 17 inv_ex) as (n & E & H & _); [lra|exact T|exact N|change (bpow radix2 (- (24))) with (/ 16777216); lra|rewrite D, Rabs_pos_eq; lra|].
  exists n. split; [exact E|]. unfold near_inverse in H. rewrite EM in H. unfold minv in H. destruct n. destruct H as ((_ & H) & _). cbn [MathModel.mx0]. cbn [mdet] in H. replace (/ _ * _) with (11 / 17) in H by field. eapply Rle_trans; [exact H|]. apply Rmult_le_compat_r; [apply bpow_ge_0|]. lra.
Qed.
