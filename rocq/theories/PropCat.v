(* C113: chromatic adaptation in floating point *)
From Coq Require Import Reals ZArith QArith Qreals Lra Lia Bool List.
From Flocq Require Import Core BinarySingleNaN.
From Verif Require Import Outcome RealOps MathModel ColorModel AdaptModel XReal SpecLin MatProofs AdaptProofs FloatInst FloatProofs ErrProofs RelErr CurveProofs PropCurve PropPixel PropDaylight ConvMat PropConv.
Import ListNotations.
Open Scope R_scope.
Local Notation f64 := (binary_float 53 1024).
Local Notation f32 := (binary_float 24 128).

Definition te (ea al ex ch : R) : R := ea * (ch + ex / 10000000) + al * ex + 1.001 * ((al + ea / 10000000) * (ch + ex / 10000000)) + 0.001.
Section Fmt.
Context (prec emax : Z) {Hp : Prec_gt_0 prec} {He : Prec_lt_emax prec emax}.
Notation fl := (binary_float prec emax).
Notation u := (bpow radix2 (- prec)).
Notation eta := (bpow radix2 (2 - emax - prec)).
Context (P5 : (24 <= prec)%Z) (E5 : (128 <= emax)%Z).

(* v is V up to e half-units of one *)
Definition ap (e : R) (v : fl) (V : R) : Prop := is_finite v = true /\ Rabs (B2R v - V) <= e * u.
Lemma ap_weak e f v V : ap e v V -> e <= f -> ap f v V.
Proof. intros [F H] E. split; [exact F|]. eapply Rle_trans; [exact H|]. apply Rmult_le_compat_r; [apply bpow_ge_0|exact E]. Qed.
Lemma ap_self (v : fl) : is_finite v = true -> ap 0 v (B2R v).
Proof. intro F. split; [exact F|]. rewrite Rminus_eq_0, Rabs_R0. lra. Qed.
Lemma ap_mag e v V c : ap e v V -> 0 <= e -> Rabs V <= c -> Rabs (B2R v) <= c + e / 10000000.
Proof.
  intros [_ H] E C. destruct (CurveProofs.u24 prec P5) as [U0 U]. assert (e * u <= e * / 10000000) by (apply Rmult_le_compat_l; lra). replace (B2R v) with ((B2R v - V) + V) by ring. eapply Rle_trans; [apply Rabs_triang|]. lra.
Qed.
Lemma ap_mul ea a A al ex x X ch : ap ea a A -> Rabs A <= al -> ap ex x X -> Rabs X <= ch -> 0 <= ea <= 1000000 -> 0 <= ex <= 1000000 -> al <= 1000000 -> ch <= 1000000 ->
  ap (te ea al ex ch) (Bmult mode_NE a x) (A * X) /\ Rabs (A * X) <= al * ch.
Proof.
  intros HA BA HX BX EA EX AL CH. pose proof (ap_mag _ _ _ _ HA ltac:(lra) BA) as MA. pose proof (ap_mag _ _ _ _ HX ltac:(lra) BX) as MX. pose proof (Rabs_pos A) as A0. pose proof (Rabs_pos X) as X0.
  destruct HA as [FA HA]. destruct HX as [FX HX]. destruct (CurveProofs.u24 prec P5) as [U0 U]. destruct (CurveProofs.eta_le prec emax E5) as [T0 T]. pose proof (vast_val) as VV.
  split; [|rewrite Rabs_mult; apply Rmult_le_compat; lra]. unfold te. set (ma := al + ea / 10000000) in *. set (mx := ch + ex / 10000000) in *.
  assert (P : Rabs (B2R a * B2R x) <= ma * mx) by (rewrite Rabs_mult; apply Rmult_le_compat; try apply Rabs_pos; assumption). assert (W : 0 <= ma * mx <= 2000000 * 2000000) by (split; [apply Rmult_le_pos; unfold ma, mx; lra|apply Rmult_le_compat; unfold ma, mx; lra]).
  destruct (gmul prec emax P5 E5 a x FA FX) as [F H]; [lra|]. split; [exact F|].
  assert (D : Rabs (B2R a * B2R x - A * X) <= ea * u * mx + al * (ex * u)).
  { replace (B2R a * B2R x - A * X) with ((B2R a - A) * B2R x + A * (B2R x - X)) by ring. eapply Rle_trans; [apply Rabs_triang|]. rewrite !Rabs_mult. apply Rplus_le_compat; apply Rmult_le_compat; try apply Rabs_pos; assumption. }
  assert (UP : u * Rabs (B2R a * B2R x) <= u * (ma * mx)) by (apply Rmult_le_compat_l; lra). assert (UW : 0 <= u * (ma * mx)) by (apply Rmult_le_pos; lra). assert (TT : eta <= 0.001 * u) by lra.
  replace (B2R (Bmult mode_NE a x) - A * X) with ((B2R (Bmult mode_NE a x) - B2R a * B2R x) + (B2R a * B2R x - A * X)) by ring. eapply Rle_trans; [apply Rabs_triang|]. lra.
Qed.
Lemma ap_add ep p P pp eq q Q pq : ap ep p P -> Rabs P <= pp -> ap eq q Q -> Rabs Q <= pq -> 0 <= ep <= 1000000000000000 -> 0 <= eq <= 1000000000000000 -> pp <= 1000000000000000 -> pq <= 1000000000000000 ->
  ap (ep + eq + (pp + pq + (ep + eq) / 10000000)) (Bplus mode_NE p q) (P + Q) /\ Rabs (P + Q) <= pp + pq.
Proof.
  intros HP BP HQ BQ EP EQ PP PQ. pose proof (ap_mag _ _ _ _ HP ltac:(lra) BP) as MP. pose proof (ap_mag _ _ _ _ HQ ltac:(lra) BQ) as MQ. destruct HP as [FP HP]. destruct HQ as [FQ HQ]. destruct (CurveProofs.u24 prec P5) as [U0 U]. pose proof (vast_val) as VV.
  split; [|eapply Rle_trans; [apply Rabs_triang|]; lra]. assert (M : Rabs (B2R p + B2R q) <= pp + pq + (ep + eq) / 10000000) by (eapply Rle_trans; [apply Rabs_triang|]; lra).
  destruct (gplus prec emax P5 E5 p q FP FQ) as [F H]; [lra|]. split; [exact F|]. apply (Rmult_le_compat_l u) in M; [|lra].
  replace (B2R (Bplus mode_NE p q) - (P + Q)) with ((B2R (Bplus mode_NE p q) - (B2R p + B2R q)) + ((B2R p - P) + (B2R q - Q))) by ring. eapply Rle_trans; [apply Rabs_triang|]. pose proof (Rabs_triang (B2R p - P) (B2R q - Q)). lra.
Qed.
Lemma ap_div ed d D es s S' q h lo : ap ed d D -> ap es s S' -> 0 < lo <= S' -> 0 <= D <= q * lo -> 0 <= es <= 100000 -> 0 <= ed <= 100000 -> 0 <= q <= 1000 -> 0 <= h <= 1000000 -> 0.1 <= lo - es / 10000000 -> ed + q * es <= h * (lo - es / 10000000) ->
  ap (h + 1.001 * (q + h / 10000000) + 0.001) (Bdiv mode_NE d s) (D / S') /\ 0 <= D / S' <= q.
Proof.
  intros [FD HD] [FS HS] LO DB ES ED QB HB G H. destruct (CurveProofs.u24 prec P5) as [U0 U]. destruct (CurveProofs.eta_le prec emax E5) as [T0 T]. pose proof (vast_val) as VV.
  assert (I0 : 0 < / S') by (apply Rinv_0_lt_compat; lra). assert (QS : 0 <= D / S' <= q). { split; [apply Rmult_le_pos; lra|]. apply (Rmult_le_reg_r S'); [lra|]. replace (D / S' * S') with D by (field; lra). assert (q * lo <= q * S') by (apply Rmult_le_compat_l; lra). lra. }
  split; [|exact QS]. assert (EU : es * u <= es * / 10000000) by (apply Rmult_le_compat_l; lra). assert (SP : lo - es / 10000000 <= B2R s) by (apply Rabs_le_inv in HS; lra). assert (J0 : 0 < / B2R s) by (apply Rinv_0_lt_compat; lra).
  set (r := D / S') in *. assert (DR : D = r * S') by (unfold r; field; lra).
  assert (E : Rabs (B2R d / B2R s - r) <= h * u).
  { apply (Rmult_le_reg_r (B2R s)); [lra|]. rewrite <- (Rabs_pos_eq (B2R s)) at 2 by lra. rewrite <- Rabs_mult. replace ((B2R d / B2R s - r) * B2R s) with ((B2R d - D) - r * (B2R s - S')) by (rewrite DR; field; lra).
    eapply Rle_trans; [apply Rabs_triang|]. rewrite Rabs_Ropp, Rabs_mult, (Rabs_pos_eq r) by lra. assert (r * Rabs (B2R s - S') <= q * (es * u)) by (apply Rmult_le_compat; try lra; apply Rabs_pos).
    assert (h * (lo - es / 10000000) <= h * B2R s) by (apply Rmult_le_compat_l; lra). assert ((ed + q * es) * u <= h * B2R s * u) by (apply Rmult_le_compat_r; lra). lra. }
  assert (HU : h * u <= h * / 10000000) by (apply Rmult_le_compat_l; lra). assert (M : Rabs (B2R d / B2R s) <= q + h / 10000000). { replace (B2R d / B2R s) with ((B2R d / B2R s - r) + r) by ring. eapply Rle_trans; [apply Rabs_triang|]. rewrite (Rabs_pos_eq r) by lra. lra. }
  destruct (gdiv prec emax P5 E5 d s FD) as [F W]; [lra|lra|]. split; [exact F|]. apply (Rmult_le_compat_l u) in M; [|lra]. assert (0 <= u * (q + h / 10000000)) by (apply Rmult_le_pos; lra).
  replace (B2R (Bdiv mode_NE d s) - r) with ((B2R (Bdiv mode_NE d s) - B2R d / B2R s) + (B2R d / B2R s - r)) by ring. eapply Rle_trans; [apply Rabs_triang|]. lra.
Qed.
(* ---- bounds carried along a computation: an error in units of u and a size ---- *)
Definition has (b : R * R) (v : fl) (V : R) : Prop := ap (fst b) v V /\ Rabs V <= snd b.
Definition small (b : R * R) : Prop := 0 <= fst b <= 1000000 /\ 0 <= snd b <= 1000000.
Lemma has_size b v V : has b v V -> 0 <= snd b.
Proof. intros [_ H]. pose proof (Rabs_pos V). lra. Qed.
Lemma te_range ea al ex ch : 0 <= ea <= 1000000 -> 0 <= al <= 1000000 -> 0 <= ex <= 1000000 -> 0 <= ch <= 1000000 -> 0 <= te ea al ex ch <= 4000000000000 /\ 0 <= al * ch <= 1000000000000.
Proof.
  intros A B C D. unfold te. assert (0 <= ea * (ch + ex / 10000000) <= 1000000 * 1000001) by (split; [apply Rmult_le_pos; lra|apply Rmult_le_compat; lra]). assert (0 <= al * ex <= 1000000 * 1000000) by (split; [apply Rmult_le_pos; lra|apply Rmult_le_compat; lra]).
  assert (0 <= (al + ea / 10000000) * (ch + ex / 10000000) <= 1000001 * 1000001) by (split; [apply Rmult_le_pos; lra|apply Rmult_le_compat; lra]). assert (0 <= al * ch <= 1000000 * 1000000) by (split; [apply Rmult_le_pos; lra|apply Rmult_le_compat; lra]). lra.
Qed.
End Fmt.
Definition rmulb (a x : R * R) : R * R := (te (fst a) (snd a) (fst x) (snd x), snd a * snd x).
Definition raddb (p q : R * R) : R * R := (fst p + fst q + (snd p + snd q + (fst p + fst q) / 10000000), snd p + snd q).
Section Dots.
Context (prec emax : Z) {Hp : Prec_gt_0 prec} {He : Prec_lt_emax prec emax}.
Notation fl := (binary_float prec emax).
Notation u := (bpow radix2 (- prec)).
Context (P5 : (24 <= prec)%Z) (E5 : (128 <= emax)%Z).
Notation has := (has prec emax).
Notation bm := (Bmult mode_NE).
Notation bp := (Bplus mode_NE).
Definition mid (p : R * R) (c : R) : Prop := 0 <= fst p <= c /\ 0 <= snd p <= c.
Lemma has_mul a x A X v w : has a v A -> has x w X -> small a -> small x -> has (rmulb a x) (bm v w) (A * X) /\ mid (rmulb a x) 4000000000000.
Proof.
  intros [HA BA] [HX BX] [SA SA'] [SX SX']. destruct (ap_mul prec emax P5 E5 _ _ _ _ _ _ _ _ HA BA HX BX SA SX ltac:(lra) ltac:(lra)) as [H K]. destruct (te_range (fst a) (snd a) (fst x) (snd x) SA SA' SX SX') as [T1 T2].
  split; [split; [exact H|exact K]|]. unfold mid, rmulb. cbn [fst snd]. lra.
Qed.
Lemma has_add p q P Q v w c : has p v P -> has q w Q -> mid p c -> mid q c -> c <= 100000000000000 -> has (raddb p q) (bp v w) (P + Q) /\ mid (raddb p q) (5 * c).
Proof.
  intros [HP BP] [HQ BQ] [SP SP'] [SQ SQ'] C. destruct (ap_add prec emax P5 E5 _ _ _ _ _ _ _ _ HP BP HQ BQ ltac:(lra) ltac:(lra) ltac:(lra) ltac:(lra)) as [H K].
  split; [split; [exact H|exact K]|]. unfold mid, raddb. cbn [fst snd]. lra.
Qed.
Lemma mid_weak p c d : mid p c -> c <= d -> mid p d.
Proof. unfold mid. lra. Qed.
Definition rdot (a b c x y z : R * R) : R * R := raddb (raddb (rmulb a x) (rmulb b y)) (rmulb c z).
Definition rdot0 (a b c x y z : R * R) : R * R := raddb (raddb (raddb (0, 0) (rmulb a x)) (rmulb b y)) (rmulb c z).
Lemma has_dot a b c x y z A B C X Y Z fa fb fc fx fy fz : has a fa A -> has b fb B -> has c fc C -> has x fx X -> has y fy Y -> has z fz Z -> small a -> small b -> small c -> small x -> small y -> small z ->
  has (rdot a b c x y z) (bp (bp (bm fa fx) (bm fb fy)) (bm fc fz)) (A * X + B * Y + C * Z).
Proof.
  intros HA HB HC HX HY HZ SA SB SC SX SY SZ. destruct (has_mul a x A X fa fx) as [H1 M1]; try assumption. destruct (has_mul b y B Y fb fy) as [H2 M2]; try assumption. destruct (has_mul c z C Z fc fz) as [H3 M3]; try assumption.
  destruct (has_add _ _ _ _ _ _ _ H1 H2 M1 M2 ltac:(lra)) as [H4 M4]. apply (has_add _ _ _ _ _ _ (5 * 4000000000000) H4 H3 M4); [apply (mid_weak _ _ _ M3); lra|lra].
Qed.
Lemma has_zero : has (0, 0) (B754_zero false) 0.
Proof. split; [split; [reflexivity|]|]; cbn [fst snd B2R]; rewrite ?Rminus_eq_0, ?Rabs_R0; lra. Qed.
Lemma has_dot0 a b c x y z A B C X Y Z fa fb fc fx fy fz : has a fa A -> has b fb B -> has c fc C -> has x fx X -> has y fy Y -> has z fz Z -> small a -> small b -> small c -> small x -> small y -> small z ->
  has (rdot0 a b c x y z) (bp (bp (bp (B754_zero false) (bm fa fx)) (bm fb fy)) (bm fc fz)) (A * X + B * Y + C * Z).
Proof.
  intros HA HB HC HX HY HZ SA SB SC SX SY SZ. destruct (has_mul a x A X fa fx) as [H1 M1]; try assumption. destruct (has_mul b y B Y fb fy) as [H2 M2]; try assumption. destruct (has_mul c z C Z fc fz) as [H3 M3]; try assumption.
  assert (M0 : mid (0, 0) 4000000000000) by (unfold mid; cbn [fst snd]; lra). destruct (has_add _ _ _ _ _ _ _ has_zero H1 M0 M1 ltac:(lra)) as [H5 M5]. rewrite Rplus_0_l in H5.
  destruct (has_add _ _ _ _ _ _ (5 * 4000000000000) H5 H2 M5) as [H4 M4]; [apply (mid_weak _ _ _ M2); lra|lra|]. apply (has_add _ _ _ _ _ _ (5 * (5 * 4000000000000)) H4 H3 M4); [apply (mid_weak _ _ _ M3); lra|lra].
Qed.

(* ---- matrices ---- *)
Context (L : libm fl) (lit : Q -> fl).
Notation ops := (b_ops prec emax L lit).
Definition on9 {A B C : Type} (r : A -> B -> C -> Prop) (a : mat33 A) (b : mat33 B) (c : mat33 C) : Prop :=
  match a, b, c with Mat33 a0 a1 a2 a3 a4 a5 a6 a7 a8, Mat33 b0 b1 b2 b3 b4 b5 b6 b7 b8, Mat33 c0 c1 c2 c3 c4 c5 c6 c7 c8 =>
    r a0 b0 c0 /\ r a1 b1 c1 /\ r a2 b2 c2 /\ r a3 b3 c3 /\ r a4 b4 c4 /\ r a5 b5 c5 /\ r a6 b6 c6 /\ r a7 b7 c7 /\ r a8 b8 c8 end.
Definition all9 {A : Type} (r : A -> Prop) (a : mat33 A) : Prop :=
  match a with Mat33 a0 a1 a2 a3 a4 a5 a6 a7 a8 => r a0 /\ r a1 /\ r a2 /\ r a3 /\ r a4 /\ r a5 /\ r a6 /\ r a7 /\ r a8 end.
Definition rmm (p q : mat33 (R * R)) : mat33 (R * R) :=
  match p, q with
  | Mat33 a b c d e f g h i, Mat33 a' b' c' d' e' f' g' h' i' =>
      Mat33 (rdot0 a b c a' d' g') (rdot0 a b c b' e' h') (rdot0 a b c c' f' i')
            (rdot0 d e f a' d' g') (rdot0 d e f b' e' h') (rdot0 d e f c' f' i')
            (rdot0 g h i a' d' g') (rdot0 g h i b' e' h') (rdot0 g h i c' f' i')
  end.
Notation d0 a b c x y z := (bp (bp (bp (B754_zero false) (bm a x)) (bm b y)) (bm c z)).
Lemma mat_mul_eq (a b c d e f g h i a' b' c' d' e' f' g' h' i' : fl) : @mat_mul _ ops (Mat33 a b c d e f g h i) (Mat33 a' b' c' d' e' f' g' h' i') =
  Mat33 (d0 a b c a' d' g') (d0 a b c b' e' h') (d0 a b c c' f' i') (d0 d e f a' d' g') (d0 d e f b' e' h') (d0 d e f c' f' i') (d0 g h i a' d' g') (d0 g h i b' e' h') (d0 g h i c' f' i').
Proof. reflexivity. Qed.
Lemma has_mm p q m n M N : on9 has p m M -> on9 has q n N -> all9 small p -> all9 small q -> on9 has (rmm p q) (@mat_mul _ ops m n) (mmul M N).
Proof.
  destruct p, q, m, n, M, N. cbn [on9 all9]. intros (A0 & A1 & A2 & A3 & A4 & A5 & A6 & A7 & A8) (B0 & B1 & B2 & B3 & B4 & B5 & B6 & B7 & B8) (C0 & C1 & C2 & C3 & C4 & C5 & C6 & C7 & C8) (D0 & D1 & D2 & D3 & D4 & D5 & D6 & D7 & D8).
  rewrite mat_mul_eq. cbn [rmm mmul on9]. refine (conj _ (conj _ (conj _ (conj _ (conj _ (conj _ (conj _ (conj _ _)))))))); apply has_dot0; assumption.
Qed.
Definition usual (c : xyz fl) : Prop :=
  (is_finite (xyz_x c) = true /\ is_finite (xyz_y c) = true /\ is_finite (xyz_z c) = true) /\ 88 <= B2R (xyz_x c) <= 112 /\ 99 <= B2R (xyz_y c) <= 101 /\ 30 <= B2R (xyz_z c) <= 140.
Definition v3 (c : xyz fl) : vec := (B2R (xyz_x c), B2R (xyz_y c), B2R (xyz_z c)).
Definition on3 {A B : Type} (r : A -> B -> R -> Prop) (a : A * A * A) (b : xyz B) (c : vec) : Prop :=
  match a, b, c with (a0, a1, a2), Xyz b0 b1 b2, (c0, c1, c2) => r a0 b0 c0 /\ r a1 b1 c1 /\ r a2 b2 c2 end.
Definition rapp (p : mat33 (R * R)) (v : (R * R) * (R * R) * (R * R)) :=
  match p, v with Mat33 a b c d e f g h i, (x, y, z) => (rdot a b c x y z, rdot d e f x y z, rdot g h i x y z) end.
Definition tops : (R * R) * (R * R) * (R * R) := ((0, 112), (0, 101), (0, 140)).
Lemma usual_has c : usual c -> on3 has tops c (v3 c).
Proof.
  destruct c as [x y z]. unfold usual, v3, tops. cbn [xyz_x xyz_y xyz_z on3]. intros ((F0 & F1 & F2) & H0 & H1 & H2).
  repeat split; cbn [fst snd]; try assumption; try (rewrite Rminus_eq_0, Rabs_R0; lra); rewrite Rabs_pos_eq; lra.
Qed.
Lemma has_app p m M c : on9 has p m M -> all9 small p -> usual c -> on3 has (rapp p tops) (@mat_mul_xyz _ ops m c) (mapp M (v3 c)).
Proof.
  intros H S U. pose proof (usual_has c U) as HU. destruct c as [x y z]. destruct p, m, M. cbn [on9 all9 on3 v3 xyz_x xyz_y xyz_z] in *. unfold tops, v3 in HU. cbn [xyz_x xyz_y xyz_z] in HU. destruct HU as (U0 & U1 & U2). destruct H as (A0 & A1 & A2 & A3 & A4 & A5 & A6 & A7 & A8). destruct S as (C0 & C1 & C2 & C3 & C4 & C5 & C6 & C7 & C8).
  assert (S0 : small (0, 112)) by (unfold small; cbn [fst snd]; lra). assert (S1 : small (0, 101)) by (unfold small; cbn [fst snd]; lra). assert (S2 : small (0, 140)) by (unfold small; cbn [fst snd]; lra).
  unfold rapp, tops, mat_mul_xyz, mapp, v3. cbn [xyz_x xyz_y xyz_z MathModel.mx0 MathModel.mx1 MathModel.mx2 MathModel.mx3 MathModel.mx4 MathModel.mx5 MathModel.mx6 MathModel.mx7 MathModel.mx8 on3]. refine (conj _ (conj _ _)); apply has_dot; assumption.
Qed.
End Dots.

(* ---- the same bounds in rational arithmetic ---- *)
Definition toRR (b : Q * Q) : R * R := (Q2R (fst b), Q2R (snd b)).
Definition qmulb (a x : Q * Q) : Q * Q :=
  (Qred (fst a * (snd x + fst x * (1 # 10000000)) + snd a * fst x + 1.001 * ((snd a + fst a * (1 # 10000000)) * (snd x + fst x * (1 # 10000000))) + 0.001), Qred (snd a * snd x))%Q.
Definition qaddb (p q : Q * Q) : Q * Q := (Qred (fst p + fst q + (snd p + snd q + (fst p + fst q) * (1 # 10000000))), Qred (snd p + snd q))%Q.
Lemma q7 : Q2R (1 # 10000000) = / 10000000.
Proof. unfold Q2R. cbn [Qnum Qden]. lra. Qed.
Lemma qmulb_ok a x : toRR (qmulb a x) = rmulb (toRR a) (toRR x).
Proof. unfold toRR, qmulb, rmulb, te. cbn [fst snd]. rewrite !q2r_red. repeat rewrite ?Q2R_plus, ?Q2R_mult. rewrite q7. reflexivity. Qed.
Lemma qaddb_ok a x : toRR (qaddb a x) = raddb (toRR a) (toRR x).
Proof. unfold toRR, qaddb, raddb. cbn [fst snd]. rewrite !q2r_red. repeat rewrite ?Q2R_plus, ?Q2R_mult. rewrite q7. reflexivity. Qed.
Definition qd (a b c x y z : Q * Q) : Q * Q := qaddb (qaddb (qmulb a x) (qmulb b y)) (qmulb c z).
Definition qd0 (a b c x y z : Q * Q) : Q * Q := qaddb (qaddb (qaddb (0%Q, 0%Q) (qmulb a x)) (qmulb b y)) (qmulb c z).
Lemma zz_ok : toRR (0%Q, 0%Q) = (0, 0).
Proof. unfold toRR, Q2R. cbn. f_equal; lra. Qed.
Lemma qd_ok a b c x y z : toRR (qd a b c x y z) = rdot (toRR a) (toRR b) (toRR c) (toRR x) (toRR y) (toRR z).
Proof. unfold qd, rdot. rewrite !qaddb_ok, !qmulb_ok. reflexivity. Qed.
Lemma qd0_ok a b c x y z : toRR (qd0 a b c x y z) = rdot0 (toRR a) (toRR b) (toRR c) (toRR x) (toRR y) (toRR z).
Proof. unfold qd0, rdot0. rewrite !qaddb_ok, !qmulb_ok, zz_ok. reflexivity. Qed.
Definition qmm (p q : mat33 (Q * Q)) : mat33 (Q * Q) :=
  match p, q with
  | Mat33 a b c d e f g h i, Mat33 a' b' c' d' e' f' g' h' i' =>
      Mat33 (qd0 a b c a' d' g') (qd0 a b c b' e' h') (qd0 a b c c' f' i')
            (qd0 d e f a' d' g') (qd0 d e f b' e' h') (qd0 d e f c' f' i')
            (qd0 g h i a' d' g') (qd0 g h i b' e' h') (qd0 g h i c' f' i')
  end.
Definition map9 {A B : Type} (f : A -> B) (m : mat33 A) : mat33 B :=
  match m with Mat33 a b c d e f' g h i => Mat33 (f a) (f b) (f c) (f d) (f e) (f f') (f g) (f h) (f i) end.
Lemma qmm_ok p q : map9 toRR (qmm p q) = rmm (map9 toRR p) (map9 toRR q).
Proof. destruct p, q. cbn [qmm rmm map9]. rewrite !qd0_ok. reflexivity. Qed.
Definition qtops : (Q * Q) * (Q * Q) * (Q * Q) := ((0, 112), (0, 101), (0, 140))%Q.
Definition qapp3 (p : mat33 (Q * Q)) : (Q * Q) * (Q * Q) * (Q * Q) :=
  match p with Mat33 a b c d e f g h i => (qd a b c (0, 112) (0, 101) (0, 140), qd d e f (0, 112) (0, 101) (0, 140), qd g h i (0, 112) (0, 101) (0, 140))%Q end.
Definition toRR3 (t : (Q * Q) * (Q * Q) * (Q * Q)) := (toRR (fst (fst t)), toRR (snd (fst t)), toRR (snd t)).
Lemma qapp3_ok p : toRR3 (qapp3 p) = rapp (map9 toRR p) tops.
Proof.
  destruct p. unfold toRR3, qapp3, tops. cbn [fst snd rapp map9]. rewrite !qd_ok.
  assert (A : toRR (0, 112)%Q = (0, 112)) by (unfold toRR, Q2R; cbn; f_equal; lra). assert (B : toRR (0, 101)%Q = (0, 101)) by (unfold toRR, Q2R; cbn; f_equal; lra). assert (C : toRR (0, 140)%Q = (0, 140)) by (unfold toRR, Q2R; cbn; f_equal; lra).
  rewrite A, B, C. reflexivity.
Qed.
Definition le01 (a b : Q) : bool := Qle_bool a b.
Lemma le01_ok a b : le01 a b = true -> Q2R a <= Q2R b.
Proof. intro H. apply Qle_Rle, Qle_bool_iff, H. Qed.
Definition between0 (c : Q) (x : Q) : bool := le01 0 x && le01 x c.
Lemma between0_ok c x : between0 c x = true -> 0 <= Q2R x <= Q2R c.
Proof. unfold between0. rewrite andb_true_iff. intros [A B]. apply le01_ok in A, B. replace (Q2R 0) with 0 in A by (unfold Q2R; cbn; lra). lra. Qed.
Definition qsmall (b : Q * Q) : bool := between0 1000000 (fst b) && between0 1000000 (snd b).
Lemma qsmall_ok b : qsmall b = true -> small (toRR b).
Proof. unfold qsmall. rewrite andb_true_iff. intros [A B]. apply between0_ok in A, B. unfold small, toRR. cbn [fst snd]. replace (Q2R 1000000) with 1000000 in A, B by (unfold Q2R; cbn; lra). lra. Qed.
Definition forall9 {A : Type} (f : A -> bool) (m : mat33 A) : bool := match m with Mat33 a b c d e f' g h i => f a && f b && f c && f d && f e && f f' && f g && f h && f i end.
Lemma forall9_ok {A B : Type} (f : A -> bool) (r : B -> Prop) (g : A -> B) m : (forall x, f x = true -> r (g x)) -> forall9 f m = true -> all9 r (map9 g m).
Proof. intros H. destruct m. cbn [forall9 map9 all9]. rewrite !andb_true_iff. intros [[[[[[[[? ?] ?] ?] ?] ?] ?] ?] ?]. auto 12. Qed.

(* rounding a bound up keeps the numbers short *)
Definition upq (q : Q) : Q := Z.succ (Qnum q * 10000 / Zpos (Qden q)) # 10000.
Lemma upq_ok q : Q2R q <= Q2R (upq q).
Proof.
  apply Qle_Rle. unfold Qle, upq. cbn [Qnum Qden]. pose proof (Z.mul_succ_div_gt (Qnum q * 10000) (Zpos (Qden q)) ltac:(lia)). lia.
Qed.
Definition upb (b : Q * Q) : Q * Q := (upq (fst b), upq (snd b)).
(* the quotient of two cone responses known up to es, at least lo and at most q lo *)
Definition qh (es lo q : Q) : Q := upq ((es + q * es) / (lo - es * (1 # 10000000))).
Definition quo (es lo q : Q) : Q * Q := (qh es lo q + 1.001 * (q + qh es lo q * (1 # 10000000)) + 0.001, q)%Q.
Definition quo_ok (es lo q : Q) : bool :=
  (between0 100000 es && between0 1000 q && between0 1000000 (qh es lo q) && le01 0.1 (lo - es * (1 # 10000000)) && le01 (es + q * es) (qh es lo q * (lo - es * (1 # 10000000))))%bool.
Definition diag3 (a b c : Q * Q) : mat33 (Q * Q) := let z := (0%Q, 0%Q) in Mat33 a z z z b z z z c.
Definition relb (q : Q) : Q * Q := (1.01 * Qabs.Qabs q, Qabs.Qabs q)%Q.
Definition absb (q : Q) : Q * Q := (8%Q, upq (Qabs.Qabs q)).
Definition cat_check (M N : mat33 Q) (lo q : Q * Q * Q) (E W : Q) : bool :=
  let BM := map9 relb M in let BN := map9 absb N in
  match qapp3 BM, lo, q with
  | ((e0, _), (e1, _), (e2, _)), (l0, l1, l2), (q0, q1, q2) =>
      let D := diag3 (quo e0 l0 q0) (quo e1 l1 q1) (quo e2 l2 q2) in let S1 := map9 upb (qmm BN D) in let S2 := map9 upb (qmm S1 BM) in
      quo_ok e0 l0 q0 && quo_ok e1 l1 q1 && quo_ok e2 l2 q2 && forall9 qsmall BM && forall9 qsmall BN && forall9 qsmall D && forall9 qsmall S1 && forall9 qsmall S2
      && forall9 (fun b => le01 (fst b) E) S2 && match qapp3 S2 with (a, b, c) => le01 (fst a) W && le01 (fst b) W && le01 (fst c) W end
  end.

Section Cat.
Context (prec emax : Z) {Hp : Prec_gt_0 prec} {He : Prec_lt_emax prec emax}.
Notation fl := (binary_float prec emax).
Notation u := (bpow radix2 (- prec)).
Context (P5 : (24 <= prec)%Z) (E5 : (128 <= emax)%Z).
Context (L : libm fl) (lit : Q -> fl) (LZ : is_finite (lit 0.0%Q) = true /\ B2R (lit 0.0%Q) = 0).
Notation ops := (b_ops prec emax L lit).
Notation has := (has prec emax).
Notation usual := (usual prec emax).
Notation v3 := (v3 prec emax).

Definition near9 (e : R) (m : mat33 fl) (M : RM) : Prop := on9 (fun _ v V => is_finite v = true /\ Rabs (B2R v - V) <= e * u) M m M.
Definition near3 (e : R) (c : xyz fl) (v : vec) : Prop := on3 (fun _ v V => is_finite v = true /\ Rabs (B2R v - V) <= e * u) v c v.

Lemma lit0_has : has (0, 0) (lit 0.0%Q) 0.
Proof. destruct LZ as [F V]. split; [split; [exact F|]|]; cbn [fst snd]; rewrite ?V, ?Rminus_eq_0, ?Rabs_R0; lra. Qed.
Lemma quo_has es lo q d s D S' bd bs : quo_ok es lo q = true -> has (Q2R es, bd) d D -> has (Q2R es, bs) s S' -> Q2R lo <= S' -> 0 <= D <= Q2R q * Q2R lo -> has (toRR (quo es lo q)) (Bdiv mode_NE d s) (D / S').
Proof.
  unfold quo_ok. rewrite !andb_true_iff. intros [[[[A B] C] G] H] [HD _] [HS _] LO DB. cbn [fst] in HD, HS. apply between0_ok in A, B, C. apply le01_ok in G, H. rewrite Q2R_minus, Q2R_mult, q7 in G. rewrite Q2R_mult, Q2R_plus, Q2R_minus, !Q2R_mult, q7 in H.
  replace (Q2R 100000) with 100000 in A by (unfold Q2R; cbn; lra). replace (Q2R 1000) with 1000 in B by (unfold Q2R; cbn; lra). replace (Q2R 1000000) with 1000000 in C by (unfold Q2R; cbn; lra).
  destruct (ap_div prec emax P5 E5 (Q2R es) d D (Q2R es) s S' (Q2R q) (Q2R (qh es lo q)) (Q2R lo) HD HS) as [X Y]; try assumption; try lra.
  split; [|unfold quo, toRR; cbn [snd]; rewrite Rabs_pos_eq; lra]. unfold quo, toRR. cbn [fst]. repeat rewrite ?Q2R_plus, ?Q2R_mult. rewrite q7. exact X.
Qed.
Lemma near_of e b v V : has b v V -> fst b <= e -> is_finite v = true /\ Rabs (B2R v - V) <= e * u.
Proof. intros [H _] E. exact (ap_weak prec emax _ _ _ _ H E). Qed.

Lemma has_up b v V : has (toRR b) v V -> has (toRR (upb b)) v V.
Proof. intros [A B]. unfold toRR, upb in *. cbn [fst snd] in *. split; cbn [fst snd]; [apply (ap_weak prec emax _ _ _ _ A), upq_ok|]. pose proof (upq_ok (snd b)). lra. Qed.
Lemma has_up9 p m M : on9 has (map9 toRR p) m M -> on9 has (map9 toRR (map9 upb p)) m M.
Proof. destruct p, m, M. cbn [map9 on9]. intros (A0 & A1 & A2 & A3 & A4 & A5 & A6 & A7 & A8). refine (conj _ (conj _ (conj _ (conj _ (conj _ (conj _ (conj _ (conj _ _)))))))); apply has_up; assumption. Qed.
Definition cones (M : RM) (lo q : Q * Q * Q) : Prop :=
  forall x y z, 88 <= x <= 112 -> 99 <= y <= 101 -> 30 <= z <= 140 -> match mapp M (x, y, z), lo, q with (a, b, c), (l0, l1, l2), (q0, q1, q2) =>
    (0 < Q2R l0 <= a /\ a <= Q2R q0 * Q2R l0) /\ (0 < Q2R l1 <= b /\ b <= Q2R q1 * Q2R l1) /\ (0 < Q2R l2 <= c /\ c <= Q2R q2 * Q2R l2) end.
Lemma cat_near M N lo q E W Mf Nf s d : on9 has (map9 toRR (map9 relb M)) Mf (toR M) -> on9 has (map9 toRR (map9 absb N)) Nf (toR N) -> cat_check M N lo q E W = true -> cones (toR M) lo q -> usual s -> usual d ->
  near9 (Q2R E) (@cat_apply _ ops Mf Nf s d) (adapt (toR M) (toR N) (v3 s) (v3 d)) /\ near3 (Q2R W) (@mat_mul_xyz _ ops (@cat_apply _ ops Mf Nf s d) s) (mapp (adapt (toR M) (toR N) (v3 s) (v3 d)) (v3 s)) /\ nonzero3 (mapp (toR M) (v3 s)).
Proof.
  intros HM HN CK CN US UD. unfold cat_check in CK. cbv zeta in CK. pose proof (qapp3_ok (map9 relb M)) as QA. destruct (qapp3 (map9 relb M)) as [[[e0 s0] [e1 s1]] [e2 s2]]. destruct lo as [[l0 l1] l2]. destruct q as [[q0 q1] q2].
  rewrite !andb_true_iff in CK. destruct CK as [[[[[[[[[G0 G1] G2] KM] KN] KD] K1] K2] KE] KW].
  apply (forall9_ok qsmall small toRR _ qsmall_ok) in KM, KN, KD, K1, K2.
  pose proof (has_app prec emax P5 E5 L lit _ _ _ s HM KM US) as AS. pose proof (has_app prec emax P5 E5 L lit _ _ _ d HM KM UD) as AD. rewrite <- QA in AS, AD.
  assert (CS := CN (B2R (xyz_x s)) (B2R (xyz_y s)) (B2R (xyz_z s)) (proj1 (proj2 US)) (proj1 (proj2 (proj2 US))) (proj2 (proj2 (proj2 US)))). assert (CD := CN (B2R (xyz_x d)) (B2R (xyz_y d)) (B2R (xyz_z d)) (proj1 (proj2 UD)) (proj1 (proj2 (proj2 UD))) (proj2 (proj2 (proj2 UD)))).
  change (mapp (toR M) (B2R (xyz_x s), B2R (xyz_y s), B2R (xyz_z s))) with (mapp (toR M) (v3 s)) in CS. change (mapp (toR M) (B2R (xyz_x d), B2R (xyz_y d), B2R (xyz_z d))) with (mapp (toR M) (v3 d)) in CD.
  assert (HC : on9 has (map9 toRR (map9 upb (qmm (map9 upb (qmm (map9 absb N) (diag3 (quo e0 l0 q0) (quo e1 l1 q1) (quo e2 l2 q2)))) (map9 relb M)))) (@cat_apply _ ops Mf Nf s d) (adapt (toR M) (toR N) (v3 s) (v3 d)) /\ nonzero3 (mapp (toR M) (v3 s))).
  { unfold cat_apply, adapt, v0, v1, v2. destruct (@mat_mul_xyz _ ops Mf s) as [a b c]. destruct (@mat_mul_xyz _ ops Mf d) as [a' b' c']. destruct (mapp (toR M) (v3 s)) as [[A B] C]. destruct (mapp (toR M) (v3 d)) as [[A' B'] C'].
    unfold toRR3, toRR in AS, AD. cbn [on3 fst snd xyz_x xyz_y xyz_z] in *. destruct AS as (S0 & S1 & S2). destruct AD as (D0 & D1 & D2). destruct CS as ((C0 & C0') & (C1 & C1') & (C2 & C2')). destruct CD as ((F0 & F0') & (F1 & F1') & (F2 & F2')).
    split; [|unfold nonzero3, v0, v1, v2; cbn [fst snd]; lra].
    apply has_up9. rewrite qmm_ok. apply (has_mm prec emax P5 E5); [|exact HM|exact K1|exact KM]. apply has_up9. rewrite qmm_ok. apply (has_mm prec emax P5 E5); [exact HN| |exact KN|exact KD].
    unfold diag3, mdiag. cbn [map9 on9]. cbv zeta. rewrite !zz_ok.
    refine (conj _ (conj _ (conj _ (conj _ (conj _ (conj _ (conj _ (conj _ _)))))))); try exact lit0_has; eapply quo_has; try eassumption; lra. }
  destruct HC as [HC NZ]. split; [|split; [|exact NZ]].
  - revert HC KE. clear. set (m := cat_apply Mf Nf s d). clearbody m. set (P := adapt _ _ _ _). clearbody P. set (B := map9 upb (qmm _ _)). clearbody B. destruct m, P, B. unfold near9. cbn [on9 map9 forall9]. rewrite !andb_true_iff. intros (A0 & A1 & A2 & A3 & A4 & A5 & A6 & A7 & A8) [[[[[[[[B0 B1] B2] B3] B4] B5] B6] B7] B8]. apply le01_ok in B0, B1, B2, B3, B4, B5, B6, B7, B8.
    refine (conj _ (conj _ (conj _ (conj _ (conj _ (conj _ (conj _ (conj _ _)))))))); eapply near_of; eassumption.
  - pose proof (has_app prec emax P5 E5 L lit _ _ _ s HC K2 US) as AP. rewrite <- qapp3_ok in AP. revert AP KW. clear. set (m := mat_mul_xyz _ s). clearbody m. set (P := mapp _ (v3 s)). clearbody P. destruct (qapp3 _) as [[a b] c]. destruct m, P as [[p0 p1] p2]. unfold near3, toRR3. cbn [on3 fst snd]. rewrite !andb_true_iff. intros (A0 & A1 & A2) [[B0 B1] B2]. apply le01_ok in B0, B1, B2.
    refine (conj _ (conj _ _)); eapply near_of; eassumption.
Qed.
End Cat.

(* ---- the three methods ---- *)
Definition bradford_q : mat33 Q := (Mat33 0.8951000 0.2664000 (- 0.1614000) (- 0.7502000) 1.7135000 0.0367000 0.0389000 (- 0.0685000) 1.0296000)%Q.
Definition cat02_q : mat33 Q := (Mat33 0.7328 0.4296 (- 0.1624) (- 0.7036) 1.6975 0.0061 0.0030 0.0136 0.9834)%Q.
Definition von_kries_q : mat33 Q := (Mat33 0.40024 0.7076 (- 0.08081) (- 0.2263) 1.16532 0.0457 0 0 0.91822)%Q.
Definition von_kries_qi : mat33 Q := (Mat33 1.8599364 (- 1.1293816) 0.2198974 0.3611914 0.6388125 (- 0.0000064) 0 0 1.0890636)%Q.
Lemma bradford_q_ok : toR bradford_q = bradford_mat.
Proof. unfold bradford_q, bradford_mat. cbn [toR]. f_equal; unfold Q2R; cbn [Qnum Qden Qopp]; lra. Qed.
Lemma cat02_q_ok : toR cat02_q = cat02_mat.
Proof. unfold cat02_q, cat02_mat. cbn [toR]. f_equal; unfold Q2R; cbn [Qnum Qden Qopp]; lra. Qed.
Lemma von_kries_q_ok : toR von_kries_q = von_kries_mat.
Proof. unfold von_kries_q, von_kries_mat. cbn [toR]. f_equal; unfold Q2R; cbn [Qnum Qden Qopp]; lra. Qed.
Lemma von_kries_qi_ok : toR von_kries_qi = von_kries_mat_inv.
Proof. unfold von_kries_qi, von_kries_mat_inv. cbn [toR]. f_equal; unfold Q2R; cbn [Qnum Qden Qopp]; lra. Qed.
Definition bradford_lo : Q * Q * Q := (82.5, 86.7, 27.3)%Q.
Definition bradford_hi : Q * Q * Q := (1.49, 1.30, 5.20)%Q.
Definition cat02_lo : Q * Q * Q := (84.2, 89.4, 31.1)%Q.
Definition cat02_hi : Q * Q * Q := (1.44, 1.24, 4.5)%Q.
Definition von_kries_lo : Q * Q * Q := (93.9, 91.3, 27.5)%Q.
Definition von_kries_hi : Q * Q * Q := (1.22, 1.15, 4.69)%Q.
Ltac conesp := intros x y z Hx Hy Hz; cbn [mapp]; unfold Q2R; cbn [Qnum Qden]; lra.
Lemma bradford_cones : cones bradford_mat bradford_lo bradford_hi.
Proof. unfold cones, bradford_mat, bradford_lo, bradford_hi. conesp. Qed.
Lemma cat02_cones : cones cat02_mat cat02_lo cat02_hi.
Proof. unfold cones, cat02_mat, cat02_lo, cat02_hi. conesp. Qed.
Lemma von_kries_cones : cones von_kries_mat von_kries_lo von_kries_hi.
Proof. unfold cones, von_kries_mat, von_kries_lo, von_kries_hi. conesp. Qed.
Lemma bradford_checked : cat_check bradford_q (qinv bradford_q) bradford_lo bradford_hi 250 43500 = true.
Proof. vm_compute. reflexivity. Qed.
Lemma cat02_checked : cat_check cat02_q (qinv cat02_q) cat02_lo cat02_hi 250 43500 = true.
Proof. vm_compute. reflexivity. Qed.
Lemma von_kries_checked : cat_check von_kries_q von_kries_qi von_kries_lo von_kries_hi 250 43500 = true.
Proof. vm_compute. reflexivity. Qed.

Section Methods.
Context (prec emax : Z) {Hp : Prec_gt_0 prec} {He : Prec_lt_emax prec emax}.
Notation fl := (binary_float prec emax).
Notation u := (bpow radix2 (- prec)).
Context (P5 : (24 <= prec)%Z) (E5 : (128 <= emax)%Z).
Context (L : libm fl) (lit : Q -> fl) (LZ : is_finite (lit 0.0%Q) = true /\ B2R (lit 0.0%Q) = 0).
Notation ops := (b_ops prec emax L lit).
Notation has := (has prec emax).
Notation usual := (usual prec emax).
Notation v3 := (v3 prec emax).
Definition fit1 (x : fl) (q : Q) : bool := (good prec emax 200 x && (100 * 2 ^ prec * gap prec emax 200 (Qden q) x (Qnum q) <=? 101 * (Z.abs (Qnum q) * 2 ^ 200)))%Z%bool.
Definition fit8 (x : fl) (q : Q) : bool := (good prec emax 200 x && (2 ^ prec * gap prec emax 200 (Qden q) x (Qnum q) <=? 8 * (2 ^ 200 * Zpos (Qden q))))%Z%bool.
Definition both9 (f : fl -> Q -> bool) (m : mat33 fl) (q : mat33 Q) : bool :=
  match m, q with Mat33 a b c d e f' g h i, Mat33 a' b' c' d' e' f'' g' h' i' => f a a' && f b b' && f c c' && f d d' && f e e' && f f' f'' && f g g' && f h h' && f i i' end.
Lemma u_unit : u * IZR (2 ^ prec) = 1.
Proof. rewrite (IZR_Zpower radix2) by lia. rewrite <- bpow_plus. replace (- prec + prec)%Z with 0%Z by lia. reflexivity. Qed.
Lemma fit_scale (x : fl) q e : good prec emax 200 x = true -> IZR (2 ^ prec) * IZR (gap prec emax 200 (Qden q) x (Qnum q)) <= e * IZR (2 ^ 200 * Zpos (Qden q)) -> ap prec emax e x (Q2R q).
Proof.
  intros G H. destruct q as [z n]. cbn [Qnum Qden] in H. destruct (gap_ok prec emax 200 n x z ltac:(lia) G) as [F D]. split; [exact F|]. destruct (unit_pos 200 n ltac:(lia)) as (P & N & E). set (o := IZR (2 ^ 200 * Zpos n)) in *. assert (O : 0 < o) by (rewrite E; apply Rmult_lt_0_compat; assumption).
  pose proof u_unit as UU. assert (U0 : 0 < u) by apply bpow_gt_0. apply (Rmult_le_reg_r o); [exact O|]. eapply Rle_trans; [exact D|]. set (g := IZR (gap _ _ _ _ _ _)) in *. replace g with (u * (IZR (2 ^ prec) * g)) by (rewrite <- Rmult_assoc, UU; ring). replace (e * u * o) with (u * (e * o)) by ring. apply Rmult_le_compat_l; lra.
Qed.
Lemma Q2R_abs q : Rabs (Q2R q) = Q2R (Qabs.Qabs q).
Proof.
  destruct q as [z n]. unfold Q2R. cbn [Qabs.Qabs Qnum Qden]. rewrite abs_IZR, Rabs_mult, (Rabs_pos_eq (/ _)); [reflexivity|]. apply Rlt_le, Rinv_0_lt_compat, IZR_lt. lia.
Qed.
Lemma fit1_ok x q : fit1 x q = true -> has (toRR (relb q)) x (Q2R q).
Proof.
  unfold fit1. rewrite andb_true_iff, Z.leb_le. intros [G H]. apply IZR_le in H. rewrite !mult_IZR in H. unfold relb, toRR. cbn [fst snd]. split; [|cbn [snd]; rewrite Q2R_abs; lra]. cbn [fst]. apply fit_scale; [exact G|]. rewrite Q2R_mult, <- Q2R_abs.
  destruct q as [z n]. cbn [Qnum Qden] in *. destruct (unit_pos 200 n ltac:(lia)) as (P & N & E). rewrite E. assert (A : Rabs (Q2R (z # n)) * IZR (Zpos n) = IZR (Z.abs z)). { unfold Q2R. cbn [Qnum Qden]. rewrite abs_IZR, Rabs_mult, (Rabs_pos_eq (/ _)) by (apply Rlt_le, Rinv_0_lt_compat, N). field. lra. }
  replace (Q2R 1.01 * Rabs (Q2R (z # n)) * (IZR (2 ^ 200) * IZR (Zpos n))) with (1.01 * (Rabs (Q2R (z # n)) * IZR (Zpos n) * IZR (2 ^ 200))) by ring. rewrite A. set (g := IZR (2 ^ prec) * _). replace (IZR 100 * IZR (2 ^ prec) * _) with (100 * g) in H by (unfold g; ring). lra.
Qed.
Lemma fit8_ok x q : fit8 x q = true -> has (toRR (absb q)) x (Q2R q).
Proof.
  unfold fit8. rewrite andb_true_iff, Z.leb_le. intros [G H]. apply IZR_le in H. rewrite mult_IZR, (mult_IZR 8) in H. unfold absb, toRR. cbn [fst snd]. split; [|cbn [snd]; rewrite Q2R_abs; apply upq_ok]. cbn [fst]. apply fit_scale; [exact G|]. replace (Q2R 8) with 8 by (unfold Q2R; cbn; lra). exact H.
Qed.
Lemma both9_ok f b m q : (forall x p, f x p = true -> has (toRR (b p)) x (Q2R p)) -> both9 f m q = true -> on9 has (map9 toRR (map9 b q)) m (toR q).
Proof.
  intros H. destruct m, q. cbn [both9 map9 on9 toR]. rewrite !andb_true_iff. intros [[[[[[[[A0 A1] A2] A3] A4] A5] A6] A7] A8]. refine (conj _ (conj _ (conj _ (conj _ (conj _ (conj _ (conj _ (conj _ _)))))))); apply H; assumption.
Qed.

Definition some9 (f : fl -> Q -> bool) (m : option (mat33 fl)) (q : mat33 Q) : bool := match m with Some m => both9 f m q | None => false end.

(* the float matrix against the exact one for the same two whites, and what it does to the source white *)
Definition close_adapt (E W : R) (s : xyz fl) (m : mat33 fl) (M : RM) : Prop := near9 prec emax E m M /\ near3 prec emax W (@mat_mul_xyz _ ops m s) (mapp M (v3 s)).
Lemma eqb_same s d : usual s -> usual d -> @xyz_eqb _ ops s d = true -> v3 s = v3 d.
Proof.
  destruct s as [x y z], d as [x' y' z']. unfold PropCat.usual, xyz_eqb, PropCat.v3. cbn [xyz_x xyz_y xyz_z]. intros ((F0 & F1 & F2) & _) ((G0 & G1 & G2) & _). change (@req _ ops) with (@Beqb prec emax). rewrite !andb_true_iff. intros [[A B] C].
  rewrite Beqb_correct in A, B, C by assumption. revert A B C. do 3 (case Req_bool_spec; [|discriminate]). intros C B A _ _ _. rewrite A, B, C. reflexivity.
Qed.
Lemma id_fit : both9 fit1 (@mat_identity _ ops) (Mat33 1 0 0 0 1 0 0 0 1)%Q = true -> forall s, usual s -> close_adapt 250 43500 s (@mat_identity _ ops) mone.
Proof.
  intros H s U. set (I := (Mat33 1 0 0 0 1 0 0 0 1)%Q) in *. apply (both9_ok fit1 relb) in H; [|exact fit1_ok]. assert (E : toR I = mone) by (unfold I, mone, Q2R; cbn; f_equal; lra). rewrite E in H.
  assert (SM : all9 small (map9 toRR (map9 relb I))) by (apply (forall9_ok qsmall small toRR _ qsmall_ok); vm_compute; reflexivity).
  pose proof (has_app prec emax P5 E5 L lit _ _ _ s H SM U) as A. rewrite <- qapp3_ok in A. split.
  - revert H. set (m := mat_identity). clearbody m. assert (KE : forall9 (fun b => le01 (fst b) 250) (map9 relb I) = true) by (vm_compute; reflexivity). revert KE. set (B := map9 relb I). clearbody B. set (P := mone). clearbody P. clear. destruct m, P, B. unfold near9. cbn [on9 map9 forall9]. rewrite !andb_true_iff. intros [[[[[[[[B0 B1] B2] B3] B4] B5] B6] B7] B8] (A0 & A1 & A2 & A3 & A4 & A5 & A6 & A7 & A8). apply le01_ok in B0, B1, B2, B3, B4, B5, B6, B7, B8.
    replace (Q2R 250) with 250 in * by (unfold Q2R; cbn; lra).
    refine (conj _ (conj _ (conj _ (conj _ (conj _ (conj _ (conj _ (conj _ _)))))))); eapply near_of; eassumption.
  - assert (KW : match qapp3 (map9 relb I) with (a, b, c) => le01 (fst a) 43500 && le01 (fst b) 43500 && le01 (fst c) 43500 end = true) by (vm_compute; reflexivity). revert A KW. clear. set (m := mat_mul_xyz _ s). clearbody m. set (P := mapp _ (v3 s)). clearbody P. destruct (qapp3 _) as [[a b] c]. destruct m, P as [[p0 p1] p2]. unfold near3, toRR3. cbn [on3 fst snd]. rewrite !andb_true_iff. intros (A0 & A1 & A2) [[B0 B1] B2]. apply le01_ok in B0, B1, B2.
    replace (Q2R 43500) with 43500 in * by (unfold Q2R; cbn; lra).
    refine (conj _ (conj _ _)); eapply near_of; eassumption.
Qed.
Context (HI : both9 fit1 (@mat_identity _ ops) (Mat33 1 0 0 0 1 0 0 0 1)%Q = true).
Context (HB : both9 fit1 (@bradford_M _ ops) bradford_q = true) (HB' : some9 fit8 (@mat_inverse _ ops (@bradford_M _ ops)) (qinv bradford_q) = true).
Context (HC : both9 fit1 (@cat02_M _ ops) cat02_q = true) (HC' : some9 fit8 (@mat_inverse _ ops (@cat02_M _ ops)) (qinv cat02_q) = true).
Context (HV : both9 fit1 (@von_kries_M _ ops) von_kries_q = true) (HV' : both9 fit8 (@von_kries_M_inv _ ops) von_kries_qi = true).
Context {XK : XConst} {XO : XConstOk XK}.

Lemma real_E : Q2R 250 = 250.
Proof. unfold Q2R. cbn. lra. Qed.
Lemma real_W : Q2R 43500 = 43500.
Proof. unfold Q2R. cbn. lra. Qed.
Lemma bradford_close s d : usual s -> usual d -> exists m M, @bradford _ ops s d = Ret m /\ bradford (FinXyz (v3 s)) (FinXyz (v3 d)) = Ret (FinM M) /\ close_adapt 250 43500 s m M /\ mapp M (v3 s) = v3 d.
Proof.
  intros US UD. assert (QI : toR (qinv bradford_q) = minv bradford_mat) by (rewrite qinv_ok, bradford_q_ok by (vm_compute; discriminate); reflexivity).
  unfold some9 in HB'. destruct (@mat_inverse _ ops (@bradford_M _ ops)) as [Nf|] eqn:EI; [|discriminate HB'].
  destruct (cat_near prec emax P5 E5 L lit LZ bradford_q (qinv bradford_q) bradford_lo bradford_hi 250 43500 (@bradford_M _ ops) Nf s d (both9_ok fit1 relb _ _ fit1_ok HB) (both9_ok fit8 absb _ _ fit8_ok HB') bradford_checked) as (A & B & NZ); try assumption; [rewrite bradford_q_ok; exact bradford_cones|].
  rewrite QI, bradford_q_ok, ?real_E, ?real_W in *. pose proof (minv_l _ bradford_nz) as IL. unfold bradford at 1. destruct (@xyz_eqb _ ops s d) eqn:EQ.
  - exists (@mat_identity _ ops), mone. split; [reflexivity|]. rewrite (bradford_fin _ _ NZ). pose proof (eqb_same s d US UD EQ) as SD. rewrite <- SD, adapt_self by assumption. split; [reflexivity|]. split; [apply id_fit; assumption|apply mapp_one].
  - rewrite EI. cbn [unwrap obind]. eexists _, _. split; [reflexivity|]. split; [apply (bradford_fin _ _ NZ)|]. split; [split; assumption|]. apply adapt_white; assumption.
Qed.
Lemma cat02_close s d : usual s -> usual d -> exists m M, @cat02 _ ops s d = Ret m /\ cat02 (FinXyz (v3 s)) (FinXyz (v3 d)) = Ret (FinM M) /\ close_adapt 250 43500 s m M /\ mapp M (v3 s) = v3 d.
Proof.
  intros US UD. assert (QI : toR (qinv cat02_q) = minv cat02_mat) by (rewrite qinv_ok, cat02_q_ok by (vm_compute; discriminate); reflexivity).
  unfold some9 in HC'. destruct (@mat_inverse _ ops (@cat02_M _ ops)) as [Nf|] eqn:EI; [|discriminate HC'].
  destruct (cat_near prec emax P5 E5 L lit LZ cat02_q (qinv cat02_q) cat02_lo cat02_hi 250 43500 (@cat02_M _ ops) Nf s d (both9_ok fit1 relb _ _ fit1_ok HC) (both9_ok fit8 absb _ _ fit8_ok HC') cat02_checked) as (A & B & NZ); try assumption; [rewrite cat02_q_ok; exact cat02_cones|].
  rewrite QI, cat02_q_ok, ?real_E, ?real_W in *. pose proof (minv_l _ cat02_nz) as IL. unfold cat02 at 1. destruct (@xyz_eqb _ ops s d) eqn:EQ.
  - exists (@mat_identity _ ops), mone. split; [reflexivity|]. rewrite (cat02_fin _ _ NZ). pose proof (eqb_same s d US UD EQ) as SD. rewrite <- SD, adapt_self by assumption. split; [reflexivity|]. split; [apply id_fit; assumption|apply mapp_one].
  - rewrite EI. cbn [unwrap obind]. eexists _, _. split; [reflexivity|]. split; [apply (cat02_fin _ _ NZ)|]. split; [split; assumption|]. apply adapt_white; assumption.
Qed.
Lemma von_kries_close s d : usual s -> usual d -> exists M, von_kries (FinXyz (v3 s)) (FinXyz (v3 d)) = FinM M /\ close_adapt 250 43500 s (@von_kries _ ops s d) M.
Proof.
  intros US UD.
  destruct (cat_near prec emax P5 E5 L lit LZ von_kries_q von_kries_qi von_kries_lo von_kries_hi 250 43500 (@von_kries_M _ ops) (@von_kries_M_inv _ ops) s d (both9_ok fit1 relb _ _ fit1_ok HV) (both9_ok fit8 absb _ _ fit8_ok HV') von_kries_checked) as (A & B & NZ); try assumption; [rewrite von_kries_q_ok; exact von_kries_cones|].
  rewrite von_kries_qi_ok, von_kries_q_ok, ?real_E, ?real_W in *. unfold von_kries at 2. destruct (@xyz_eqb _ ops s d) eqn:EQ.
  - exists mone. pose proof (eqb_same s d US UD EQ) as SD. split; [|apply id_fit; assumption]. unfold von_kries. rewrite (proj2 (xyz_eqb_fin _ _) SD). reflexivity.
  - eexists. split; [apply (von_kries_fin _ _ NZ)|split; assumption]. intro SD. rewrite <- not_true_iff_false in EQ. apply EQ. clear - SD US UD. destruct s as [x y z], d as [x' y' z']. unfold PropCat.usual, xyz_eqb, PropCat.v3 in *. cbn [xyz_x xyz_y xyz_z] in *. destruct US as ((F0 & F1 & F2) & _). destruct UD as ((G0 & G1 & G2) & _). injection SD as A B C. change (@req _ ops) with (@Beqb prec emax). rewrite !Beqb_correct by assumption. rewrite A, B, C, !Req_bool_true by reflexivity. reflexivity.
Qed.
End Methods.

Lemma zero32 : is_finite (f64_to_f32 (b_of_Q 53 1024 0.0%Q)) = true /\ B2R (f64_to_f32 (b_of_Q 53 1024 0.0%Q)) = 0.
Proof. replace (f64_to_f32 (b_of_Q 53 1024 0.0%Q)) with (B754_zero false : f32) by (apply B2SF_inj; vm_compute; reflexivity). split; reflexivity. Qed.
Lemma zero64 : is_finite (b_of_Q 53 1024 0.0%Q) = true /\ B2R (b_of_Q 53 1024 0.0%Q) = 0.
Proof. replace (b_of_Q 53 1024 0.0%Q) with (B754_zero false : f64) by (apply B2SF_inj; vm_compute; reflexivity). split; reflexivity. Qed.
Lemma ids32 L : both9 24 128 (fit1 24 128) (@mat_identity _ (f32_ops L)) (Mat33 1 0 0 0 1 0 0 0 1)%Q = true. Proof. vm_compute. reflexivity. Qed.
Lemma brad32 L : both9 24 128 (fit1 24 128) (@bradford_M _ (f32_ops L)) bradford_q = true. Proof. vm_compute. reflexivity. Qed.
Lemma brad32' L : some9 24 128 (fit8 24 128) (@mat_inverse _ (f32_ops L) (@bradford_M _ (f32_ops L))) (qinv bradford_q) = true. Proof. vm_compute. reflexivity. Qed.
Lemma c02_32 L : both9 24 128 (fit1 24 128) (@cat02_M _ (f32_ops L)) cat02_q = true. Proof. vm_compute. reflexivity. Qed.
Lemma c02_32' L : some9 24 128 (fit8 24 128) (@mat_inverse _ (f32_ops L) (@cat02_M _ (f32_ops L))) (qinv cat02_q) = true. Proof. vm_compute. reflexivity. Qed.
Lemma vk32 L : both9 24 128 (fit1 24 128) (@von_kries_M _ (f32_ops L)) von_kries_q = true. Proof. vm_compute. reflexivity. Qed.
Lemma vk32' L : both9 24 128 (fit8 24 128) (@von_kries_M_inv _ (f32_ops L)) von_kries_qi = true. Proof. vm_compute. reflexivity. Qed.
Lemma ids64 L : both9 53 1024 (fit1 53 1024) (@mat_identity _ (f64_ops L)) (Mat33 1 0 0 0 1 0 0 0 1)%Q = true. Proof. vm_compute. reflexivity. Qed.
Lemma brad64 L : both9 53 1024 (fit1 53 1024) (@bradford_M _ (f64_ops L)) bradford_q = true. Proof. vm_compute. reflexivity. Qed.
Lemma brad64' L : some9 53 1024 (fit8 53 1024) (@mat_inverse _ (f64_ops L) (@bradford_M _ (f64_ops L))) (qinv bradford_q) = true. Proof. vm_compute. reflexivity. Qed.
Lemma c02_64 L : both9 53 1024 (fit1 53 1024) (@cat02_M _ (f64_ops L)) cat02_q = true. Proof. vm_compute. reflexivity. Qed.
Lemma c02_64' L : some9 53 1024 (fit8 53 1024) (@mat_inverse _ (f64_ops L) (@cat02_M _ (f64_ops L))) (qinv cat02_q) = true. Proof. vm_compute. reflexivity. Qed.
Lemma vk64 L : both9 53 1024 (fit1 53 1024) (@von_kries_M _ (f64_ops L)) von_kries_q = true. Proof. vm_compute. reflexivity. Qed.
Lemma vk64' L : both9 53 1024 (fit8 53 1024) (@von_kries_M_inv _ (f64_ops L)) von_kries_qi = true. Proof. vm_compute. reflexivity. Qed.

Theorem C113_bradford_f32 {XK : XConst} {XO : XConstOk XK} (L : libm f32) : forall s d, usual 24 128 s -> usual 24 128 d -> exists m M, @bradford _ (f32_ops L) s d = Ret m /\ bradford (FinXyz (v3 24 128 s)) (FinXyz (v3 24 128 d)) = Ret (FinM M)
  /\ near9 24 128 250 m M /\ near3 24 128 43500 (@mat_mul_xyz _ (f32_ops L) m s) (v3 24 128 d).
Proof.
  intros s d US UD. destruct (bradford_close 24 128 ltac:(lia) ltac:(lia) L _ zero32 (ids32 L) (brad32 L) (brad32' L) s d US UD) as (m & M & A & B & (C & D) & E). exists m, M. rewrite E in D. auto.
Qed.
Print Assumptions C113_bradford_f32.
Theorem C113_bradford_f64 {XK : XConst} {XO : XConstOk XK} (L : libm f64) : forall s d, usual 53 1024 s -> usual 53 1024 d -> exists m M, @bradford _ (f64_ops L) s d = Ret m /\ bradford (FinXyz (v3 53 1024 s)) (FinXyz (v3 53 1024 d)) = Ret (FinM M)
  /\ near9 53 1024 250 m M /\ near3 53 1024 43500 (@mat_mul_xyz _ (f64_ops L) m s) (v3 53 1024 d).
Proof.
  intros s d US UD. destruct (bradford_close 53 1024 ltac:(lia) ltac:(lia) L _ zero64 (ids64 L) (brad64 L) (brad64' L) s d US UD) as (m & M & A & B & (C & D) & E). exists m, M. rewrite E in D. auto.
Qed.
Print Assumptions C113_bradford_f64.
Theorem C113_cat02_f32 {XK : XConst} {XO : XConstOk XK} (L : libm f32) : forall s d, usual 24 128 s -> usual 24 128 d -> exists m M, @cat02 _ (f32_ops L) s d = Ret m /\ cat02 (FinXyz (v3 24 128 s)) (FinXyz (v3 24 128 d)) = Ret (FinM M)
  /\ near9 24 128 250 m M /\ near3 24 128 43500 (@mat_mul_xyz _ (f32_ops L) m s) (v3 24 128 d).
Proof.
  intros s d US UD. destruct (cat02_close 24 128 ltac:(lia) ltac:(lia) L _ zero32 (ids32 L) (c02_32 L) (c02_32' L) s d US UD) as (m & M & A & B & (C & D) & E). exists m, M. rewrite E in D. auto.
Qed.
Print Assumptions C113_cat02_f32.
Theorem C113_cat02_f64 {XK : XConst} {XO : XConstOk XK} (L : libm f64) : forall s d, usual 53 1024 s -> usual 53 1024 d -> exists m M, @cat02 _ (f64_ops L) s d = Ret m /\ cat02 (FinXyz (v3 53 1024 s)) (FinXyz (v3 53 1024 d)) = Ret (FinM M)
  /\ near9 53 1024 250 m M /\ near3 53 1024 43500 (@mat_mul_xyz _ (f64_ops L) m s) (v3 53 1024 d).
Proof.
  intros s d US UD. destruct (cat02_close 53 1024 ltac:(lia) ltac:(lia) L _ zero64 (ids64 L) (c02_64 L) (c02_64' L) s d US UD) as (m & M & A & B & (C & D) & E). exists m, M. rewrite E in D. auto.
Qed.
Print Assumptions C113_cat02_f64.
Theorem C113_von_kries_f32 {XK : XConst} {XO : XConstOk XK} (L : libm f32) : forall s d, usual 24 128 s -> usual 24 128 d -> exists M, von_kries (FinXyz (v3 24 128 s)) (FinXyz (v3 24 128 d)) = FinM M
  /\ near9 24 128 250 (@von_kries _ (f32_ops L) s d) M /\ near3 24 128 43500 (@mat_mul_xyz _ (f32_ops L) (@von_kries _ (f32_ops L) s d) s) (mapp M (v3 24 128 s)).
Proof.
  intros s d US UD. destruct (von_kries_close 24 128 ltac:(lia) ltac:(lia) L _ zero32 (ids32 L) (vk32 L) (vk32' L) s d US UD) as (M & A & C & D). exists M. auto.
Qed.
Print Assumptions C113_von_kries_f32.
Theorem C113_von_kries_f64 {XK : XConst} {XO : XConstOk XK} (L : libm f64) : forall s d, usual 53 1024 s -> usual 53 1024 d -> exists M, von_kries (FinXyz (v3 53 1024 s)) (FinXyz (v3 53 1024 d)) = FinM M
  /\ near9 53 1024 250 (@von_kries _ (f64_ops L) s d) M /\ near3 53 1024 43500 (@mat_mul_xyz _ (f64_ops L) (@von_kries _ (f64_ops L) s d) s) (mapp M (v3 53 1024 s)).
Proof.
  intros s d US UD. destruct (von_kries_close 53 1024 ltac:(lia) ltac:(lia) L _ zero64 (ids64 L) (vk64 L) (vk64' L) s d US UD) as (M & A & C & D). exists M. auto.
Qed.
Print Assumptions C113_von_kries_f64.

(* D65 and D50 are such whites; in single precision the way from D65 to D50 arrives exactly, the way back does not *)
Local Notation single q := (f64_to_f32 (b_of_Q 53 1024 q)).
Definition w65 : xyz f32 := Xyz (single 95.047%Q) (single 100%Q) (single 108.883%Q).
Definition w50 : xyz f32 := Xyz (single 96.422%Q) (single 100%Q) (single 82.521%Q).
Definition lands (L : libm f32) (s d : xyz f32) : bool := match @bradford _ (f32_ops L) s d with Ret m => @xyz_eqb _ (f32_ops L) (@mat_mul_xyz _ (f32_ops L) m s) d | _ => false end.
Example C113_example : forall L : libm f32, usual 24 128 w65 /\ usual 24 128 w50 /\ lands L w65 w50 = true /\ lands L w50 w65 = false.
Proof.
  intro L.
  destruct (exact_sf 24 128 (single 95.047%Q) 12458000 (-17) _ ltac:(vm_compute; reflexivity) eq_refl) as [F1 V1]. destruct (exact_sf 24 128 (single 108.883%Q) 14271513 (-17) _ ltac:(vm_compute; reflexivity) eq_refl) as [F2 V2].
  destruct (exact_sf 24 128 (single 96.422%Q) 12638224 (-17) _ ltac:(vm_compute; reflexivity) eq_refl) as [F3 V3]. destruct (exact_sf 24 128 (single 82.521%Q) 10816193 (-17) _ ltac:(vm_compute; reflexivity) eq_refl) as [F4 V4]. assert (O : is_finite (single 100%Q) = true /\ B2R (single 100%Q) = 100) by by_sf. destruct O as [F5 V5].
  split; [|split; [|split; vm_compute; reflexivity]].
  - unfold usual, w65. cbn [xyz_x xyz_y xyz_z]. rewrite V1, V2, V5. repeat split; try assumption; cbn; lra.
  - unfold usual, w50. cbn [xyz_x xyz_y xyz_z]. rewrite V3, V4, V5. repeat split; try assumption; cbn; lra.
Qed.
