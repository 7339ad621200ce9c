(* lab.rs in floating point: how far each channel is from the exact CIE formulas, for a powf and a powi of bounded error *)
From Coq Require Import Reals ZArith QArith Qreals Lra Lia Bool List.
From Flocq Require Import Core BinarySingleNaN.
From Verif Require Import Outcome RealOps MathModel ColorModel LabModel XReal TransferProofs FloatInst FloatProofs ErrProofs LabProofs RelErr CurveProofs PropCurve.
Open Scope R_scope.

(* ---- the exact curve: slopes ---- *)
Lemma cube_diff a b : a ^ 3 - b ^ 3 = (a - b) * (a * a + a * b + b * b).
Proof. ring. Qed.
Lemma quad_bound y x : Rabs y <= 1.06 -> Rabs x <= 1.055 -> Rabs (y * y + y * x + x * x) <= 3.38.
Proof.
  intros Y X. pose proof (Rabs_triang (y * y + y * x) (x * x)). pose proof (Rabs_triang (y * y) (y * x)). rewrite !Rabs_mult in *. pose proof (Rabs_pos y). pose proof (Rabs_pos x).
  assert (Rabs y * Rabs y <= 1.06 * 1.06) by (apply Rmult_le_compat; lra). assert (Rabs y * Rabs x <= 1.06 * 1.055) by (apply Rmult_le_compat; lra). assert (Rabs x * Rabs x <= 1.055 * 1.055) by (apply Rmult_le_compat; lra). lra.
Qed.
Lemma cie_g_slope m a b : 6 / 29 <= m -> b <= a <= m -> 108 / 841 * (a - b) <= cie_g a - cie_g b <= 3 * (m * m) * (a - b).
Proof.
  intros M H. assert (MM : 36 / 841 <= m * m) by nra. unfold cie_g. destruct (Rlt_dec (6 / 29) a) as [A|A]; destruct (Rlt_dec (6 / 29) b) as [B|B].
  - rewrite cube_diff. rewrite <- (Rmult_comm (a - b)), <- (Rmult_comm (a - b)). split; apply Rmult_le_compat_l; nra.
  - assert (S : 108 / 841 * (a - 6 / 29) <= a ^ 3 - (6 / 29) ^ 3 <= 3 * (m * m) * (a - 6 / 29)). { rewrite cube_diff. rewrite <- (Rmult_comm (a - 6 / 29)), <- (Rmult_comm (a - 6 / 29)). split; apply Rmult_le_compat_l; nra. }
    assert (S2 : 108 / 841 * (6 / 29 - b) <= 3 * (m * m) * (6 / 29 - b)) by (apply Rmult_le_compat_r; lra). split; lra.
  - exfalso. lra.
  - assert (S2 : 108 / 841 * (a - b) <= 3 * (m * m) * (a - b)) by (apply Rmult_le_compat_r; lra). split; lra.
Qed.
Lemma cie_g_lip m a b : 6 / 29 <= m -> a <= m -> b <= m -> Rabs (cie_g a - cie_g b) <= 3 * (m * m) * Rabs (a - b).
Proof.
  intros M A B. destruct (Rle_dec b a) as [H|H].
  - pose proof (cie_g_slope m a b M ltac:(lra)) as S. rewrite (Rabs_pos_eq (a - b)) by lra. rewrite Rabs_pos_eq; lra.
  - pose proof (cie_g_slope m b a M ltac:(lra)) as S. rewrite <- Rabs_Ropp, <- (Rabs_Ropp (a - b)). rewrite (Rabs_pos_eq (- (a - b))) by lra. rewrite Rabs_pos_eq; lra.
Qed.
Lemma cie_f_slope s t : t <= s -> 0 <= cie_f s - cie_f t <= 7.79 * (s - t).
Proof.
  intro H. pose proof (cie_gf s) as Gs. pose proof (cie_gf t) as Gt. assert (O : cie_f t <= cie_f s) by (destruct (Req_dec t s) as [->|N]; [lra|apply Rlt_le, cie_f_incr; lra]).
  pose proof (cie_g_slope (Rmax (cie_f s) (6 / 29)) (cie_f s) (cie_f t) (Rmax_r _ _) (conj O (Rmax_l _ _))) as S. lra.
Qed.
Lemma cie_f_lip s t : Rabs (cie_f s - cie_f t) <= 7.79 * Rabs (s - t).
Proof.
  destruct (Rle_dec t s) as [H|H].
  - pose proof (cie_f_slope s t H). rewrite !Rabs_pos_eq; lra.
  - pose proof (cie_f_slope t s ltac:(lra)). rewrite <- Rabs_Ropp, <- (Rabs_Ropp (s - t)), !Rabs_pos_eq; lra.
Qed.
Lemma cube_root_le t m : 0 < t -> 0 < m -> t <= m ^ 3 -> Rpower t (/ 3) <= m.
Proof. intros T M H. rewrite <- (pow_cube_root m M). apply Rle_Rpower_l; [lra|split; [exact T|exact H]]. Qed.
Lemma cie_f_bound t : - 0.15 <= t <= 1.15 -> - 1.031 <= cie_f t <= 1.048.
Proof.
  intro H. unfold cie_f. destruct (Rlt_dec _ _) as [C|C]; [|lra]. split; [pose proof (Rpower_gt0 t (/ 3)); lra|]. apply cube_root_le; lra.
Qed.

Ltac tri := match goal with |- Rabs (?a + ?b) <= _ => eapply Rle_trans; [apply Rabs_triang|] end.
Lemma near_trans a b c e f : Rabs (a - b) <= e -> Rabs (b - c) <= f -> Rabs (a - c) <= e + f.
Proof. intros H1 H2. replace (a - c) with ((a - b) + (b - c)) by ring. tri. lra. Qed.
Lemma near_sub a b c d e f : Rabs (a - b) <= e -> Rabs (c - d) <= f -> Rabs ((a - c) - (b - d)) <= e + f.
Proof. intros H1 H2. apply Rabs_le_inv in H1, H2. apply Rabs_le. lra. Qed.
Lemma near_add a b c d e f : Rabs (a - b) <= e -> Rabs (c - d) <= f -> Rabs ((a + c) - (b + d)) <= e + f.
Proof. intros H1 H2. apply Rabs_le_inv in H1, H2. apply Rabs_le. lra. Qed.
Lemma near_scale k a b e : Rabs (a - b) <= e -> 0 <= k -> Rabs (k * a - k * b) <= k * e.
Proof. intros H K. replace (k * a - k * b) with (k * (a - b)) by ring. rewrite Rabs_mult, (Rabs_pos_eq k) by exact K. apply Rmult_le_compat_l; assumption. Qed.

Section F.
Context (prec emax : Z) {Hp : Prec_gt_0 prec} {He : Prec_lt_emax prec emax}.
Notation fl := (binary_float prec emax).
Notation u := (bpow radix2 (- prec)).
Notation eta := (bpow radix2 (2 - emax - prec)).
Notation tiny := (bpow radix2 (2 - emax)).
Notation rnd := (round radix2 (SpecFloat.fexp prec emax) ZnearestE).
Context (P5 : (24 <= prec)%Z) (E5 : (128 <= emax)%Z).

Lemma large : 1000000 <= bpow radix2 emax.
Proof. apply Rle_trans with (bpow radix2 20); [change (1000000 <= 1048576); lra|apply bpow_le; lia]. Qed.
Lemma rnd_under x M : Rabs x <= M -> M <= 200000 -> Rabs (rnd x - x) <= u * M + eta /\ Rabs (rnd x) < bpow radix2 emax.
Proof.
  intros H M1. destruct (u24 prec P5) as [U0 U]. destruct (eta_le prec emax E5) as [T0 T]. pose proof large as G. pose proof (rnd_any prec emax x) as R.
  pose proof (Rabs_pos x). assert (X : u * Rabs x <= u * M) by (apply Rmult_le_compat_l; lra). assert (X2 : u * M <= 1) by nra. split; [lra|].
  replace (rnd x) with ((rnd x - x) + x) by ring. eapply Rle_lt_trans; [apply Rabs_triang|]. lra.
Qed.
(* one operation on finite operands with a result of size at most M *)
Lemma amul (x y : fl) M : is_finite x = true -> is_finite y = true -> Rabs (B2R x * B2R y) <= M -> M <= 200000 ->
  is_finite (Bmult mode_NE x y) = true /\ Rabs (B2R (Bmult mode_NE x y) - B2R x * B2R y) <= u * M + eta.
Proof.
  intros X Y H M1. destruct (rnd_under _ _ H M1) as [R1 R2]. pose proof (mult_small prec emax x y X Y R2) as F. split; [exact F|]. apply mult_fin in F. destruct F as (_ & _ & ->). exact R1.
Qed.
Lemma aadd (x y : fl) M : is_finite x = true -> is_finite y = true -> Rabs (B2R x + B2R y) <= M -> M <= 200000 ->
  is_finite (Bplus mode_NE x y) = true /\ Rabs (B2R (Bplus mode_NE x y) - (B2R x + B2R y)) <= u * M + eta.
Proof.
  intros X Y H M1. destruct (rnd_under _ _ H M1) as [R1 R2]. pose proof (plus_small prec emax x y X Y R2) as F. split; [exact F|]. apply plus_fin in F. destruct F as (_ & _ & ->). exact R1.
Qed.
Lemma asub (x y : fl) M : is_finite x = true -> is_finite y = true -> Rabs (B2R x - B2R y) <= M -> M <= 200000 ->
  is_finite (Bminus mode_NE x y) = true /\ Rabs (B2R (Bminus mode_NE x y) - (B2R x - B2R y)) <= u * M + eta.
Proof.
  intros X Y H M1. destruct (rnd_under _ _ H M1) as [R1 R2]. pose proof (Bminus_correct prec emax _ _ mode_NE x y X Y) as C. cbn [round_mode] in C. rewrite Rlt_bool_true in C by exact R2. destruct C as (C1 & C2 & _). rewrite C1. split; assumption.
Qed.
Lemma adiv (x y : fl) M : is_finite x = true -> B2R y <> 0 -> Rabs (B2R x / B2R y) <= M -> M <= 200000 ->
  is_finite (Bdiv mode_NE x y) = true /\ Rabs (B2R (Bdiv mode_NE x y) - B2R x / B2R y) <= u * M + eta.
Proof. intros X Y H M1. destruct (rnd_under _ _ H M1) as [R1 R2]. destruct (fdiv prec emax x y X Y R2) as [D1 D2]. rewrite D2. split; assumption. Qed.
Lemma gdiv (x y : fl) : is_finite x = true -> 0 < B2R y -> 0.001 <= B2R x / B2R y <= 1000 ->
  is_finite (Bdiv mode_NE x y) = true /\ rel u (B2R (Bdiv mode_NE x y)) (B2R x / B2R y).
Proof. intros X Y H. pose proof (tiny_le emax E5). destruct (fdiv prec emax x y X ltac:(lra)) as [D1 D2]; [apply rnd_below; try assumption; lra|]. split; [exact D1|]. rewrite D2. apply rnd_rel; try assumption. lra. Qed.

(* powi x 3 within a few half-units in the last place: repeated multiplication does *)
Definition powi3_ok (pi : fl -> Z -> fl) : Prop := forall x, is_finite x = true -> Rabs (B2R x) <= 2 -> is_finite (pi x 3%Z) = true /\ Rabs (B2R (pi x 3%Z) - B2R x ^ 3) <= 4 * u * Rabs (B2R x ^ 3) + 4 * eta.
Definition by_mult (x : fl) (n : Z) : fl := Bmult mode_NE x (Bmult mode_NE x x).
Lemma by_mult_ok : powi3_ok by_mult.
Proof.
  intros x F H. destruct (u24 prec P5) as [U0 U]. destruct (eta_le prec emax E5) as [T0 T]. unfold by_mult. set (v := B2R x) in *.
  assert (A0 := Rabs_pos v). assert (S : Rabs (v * v) = Rabs v * Rabs v) by apply Rabs_mult. assert (S4 : Rabs (v * v) <= 4) by (rewrite S; nra).
  destruct (amul x x 4 F F S4 ltac:(lra)) as [F1 E1]. pose proof F1 as F1'. apply mult_fin in F1'. destruct F1' as (_ & _ & Q1). fold v in Q1, E1. pose proof (rnd_any prec emax (v * v)) as R1. rewrite <- Q1 in R1. set (q := B2R (Bmult mode_NE x x)) in *.
  assert (Q : Rabs q <= 5). { replace q with ((q - v * v) + v * v) by ring. tri. nra. }
  assert (VQ : Rabs (v * q) <= 10) by (rewrite Rabs_mult; nra).
  destruct (amul x (Bmult mode_NE x x) 10 F F1 VQ ltac:(lra)) as [F2 E2]. split; [exact F2|]. apply mult_fin in F2. destruct F2 as (_ & _ & Q2). fold v in Q2. fold q in Q2. rewrite Q2. pose proof (rnd_any prec emax (v * q)) as R2.
  replace (v ^ 3) with (v * (v * v)) by ring. rewrite (Rabs_mult v (v * v)).
  assert (D : Rabs (v * q - v * (v * v)) <= Rabs v * (u * Rabs (v * v) + eta)). { rewrite <- Rmult_minus_distr_l, Rabs_mult. apply Rmult_le_compat_l; [exact A0|exact R1]. }
  assert (D2 : Rabs v * eta <= 2 * eta) by (apply Rmult_le_compat_r; lra). set (c := Rabs v * Rabs (v * v)) in *.
  assert (C0 : 0 <= c) by (apply Rmult_le_pos; [exact A0|apply Rabs_pos]). assert (UC : 0 <= u * c) by (apply Rmult_le_pos; lra).
  assert (D3 : Rabs (v * q - v * (v * v)) <= u * c + 2 * eta) by (unfold c; lra).
  assert (N : Rabs (v * q) <= c + (u * c + 2 * eta)). { replace (v * q) with ((v * q - v * (v * v)) + v * (v * v)) by ring. tri. rewrite (Rabs_mult v (v * v)). fold c. lra. }
  assert (N2 : u * Rabs (v * q) <= u * (c + (u * c + 2 * eta))) by (apply Rmult_le_compat_l; lra). assert (UU : u * (u * c) <= 0.1 * (u * c)) by (apply Rmult_le_compat_r; lra). assert (UE : u * eta <= 0.1 * eta) by (apply Rmult_le_compat_r; lra).
  pose proof (near_trans _ _ _ _ _ R2 D3). lra.
Qed.

Context (L : libm fl) (lit : Q -> fl) (PW : powf_ok prec emax (l_powf L)) (PI : powi3_ok (l_powi L)).
Definition exact_lit (l : Q -> fl) : Prop := Forall (fun p => is_finite (l (fst p)) = true /\ B2R (l (fst p)) = IZR (snd p))
  ((1.0%Q, 1%Z) :: (3.0%Q, 3%Z) :: (16.0%Q, 16%Z) :: (27.0%Q, 27%Z) :: (116.0%Q, 116%Z) :: (200.0%Q, 200%Z) :: (216.0%Q, 216%Z) :: (500.0%Q, 500%Z) :: (24389.0%Q, 24389%Z) :: nil).
Context (LX : exact_lit lit).
Notation ops := (b_ops prec emax L lit).

Lemma l_1 : is_finite (lit 1.0%Q) = true /\ B2R (lit 1.0%Q) = 1. Proof. unfold exact_lit in LX. repeat match goal with H : Forall _ (_ :: _) |- _ => inversion_clear H end. assumption. Qed.
Lemma l_3 : is_finite (lit 3.0%Q) = true /\ B2R (lit 3.0%Q) = 3. Proof. unfold exact_lit in LX. repeat match goal with H : Forall _ (_ :: _) |- _ => inversion_clear H end. assumption. Qed.
Lemma l_16 : is_finite (lit 16.0%Q) = true /\ B2R (lit 16.0%Q) = 16. Proof. unfold exact_lit in LX. repeat match goal with H : Forall _ (_ :: _) |- _ => inversion_clear H end. assumption. Qed.
Lemma l_27 : is_finite (lit 27.0%Q) = true /\ B2R (lit 27.0%Q) = 27. Proof. unfold exact_lit in LX. repeat match goal with H : Forall _ (_ :: _) |- _ => inversion_clear H end. assumption. Qed.
Lemma l_116 : is_finite (lit 116.0%Q) = true /\ B2R (lit 116.0%Q) = 116. Proof. unfold exact_lit in LX. repeat match goal with H : Forall _ (_ :: _) |- _ => inversion_clear H end. assumption. Qed.
Lemma l_200 : is_finite (lit 200.0%Q) = true /\ B2R (lit 200.0%Q) = 200. Proof. unfold exact_lit in LX. repeat match goal with H : Forall _ (_ :: _) |- _ => inversion_clear H end. assumption. Qed.
Lemma l_216 : is_finite (lit 216.0%Q) = true /\ B2R (lit 216.0%Q) = 216. Proof. unfold exact_lit in LX. repeat match goal with H : Forall _ (_ :: _) |- _ => inversion_clear H end. assumption. Qed.
Lemma l_500 : is_finite (lit 500.0%Q) = true /\ B2R (lit 500.0%Q) = 500. Proof. unfold exact_lit in LX. repeat match goal with H : Forall _ (_ :: _) |- _ => inversion_clear H end. assumption. Qed.
Lemma l_24389 : is_finite (lit 24389.0%Q) = true /\ B2R (lit 24389.0%Q) = 24389. Proof. unfold exact_lit in LX. repeat match goal with H : Forall _ (_ :: _) |- _ => inversion_clear H end. assumption. Qed.

Definition third : fl := Bdiv mode_NE (lit 1.0%Q) (lit 3.0%Q).
Definition feps : fl := Bdiv mode_NE (lit 216.0%Q) (lit 24389.0%Q).
Definition fkap : fl := Bdiv mode_NE (lit 24389.0%Q) (lit 27.0%Q).
Lemma third_ok : is_finite third = true /\ rel u (B2R third) (/ 3).
Proof. destruct l_1 as [A1 A2]. destruct l_3 as [B1 B2]. replace (/ 3) with (B2R (lit 1.0%Q) / B2R (lit 3.0%Q)) by (rewrite A2, B2; field). apply gdiv; [assumption| |]; rewrite ?A2, ?B2; lra. Qed.
Lemma feps_ok : is_finite feps = true /\ rel u (B2R feps) (216 / 24389).
Proof. destruct l_216 as [A1 A2]. destruct l_24389 as [B1 B2]. replace (216 / 24389) with (B2R (lit 216.0%Q) / B2R (lit 24389.0%Q)) by (rewrite A2, B2; reflexivity). apply gdiv; [assumption| |]; rewrite ?A2, ?B2; lra. Qed.
Lemma fkap_ok : is_finite fkap = true /\ rel u (B2R fkap) (24389 / 27).
Proof. destruct l_24389 as [A1 A2]. destruct l_27 as [B1 B2]. replace (24389 / 27) with (B2R (lit 24389.0%Q) / B2R (lit 27.0%Q)) by (rewrite A2, B2; reflexivity). apply gdiv; [assumption| |]; rewrite ?A2, ?B2; lra. Qed.

(* ---- forward: lab_f ---- *)
Lemma lab_f_ok (t : fl) : is_finite t = true -> - 0.151 <= B2R t <= 1.151 -> is_finite (@lab_f _ ops t) = true /\ Rabs (B2R (@lab_f _ ops t) - cie_f (B2R t)) <= 6.4 * u.
Proof.
  intros F H. destruct (u24 prec P5) as [U0 U]. destruct (eta_le prec emax E5) as [T0 T]. destruct feps_ok as [Fe Re]. destruct fkap_ok as [Fk Rk]. destruct third_ok as [Ft Rt]. pose proof (tiny_le emax E5) as [W0 W].
  unfold lab_f. change (@lab_epsilon _ ops) with feps. change (@lab_kappa _ ops) with fkap. change (@rlt _ ops feps t) with (Bltb feps t). change (@rlit _ ops) with lit. change (@rdiv _ ops) with (Bdiv mode_NE (prec := prec) (emax := emax)).
  fold third. pose proof (rel_bounds _ _ _ Re) as Be. pose proof (rel_bounds _ _ _ Rk) as Bk. pose proof (rel_bounds _ _ _ Rt) as Bt.
  destruct (lt_cases prec emax feps t Fe F) as [[-> C]|[-> C]].
  - set (x := B2R t) in *. assert (X : 0.0088 <= x) by lra.
    assert (LN : Rabs (ln x) <= INR 5) by (apply ln_bound; lra). rewrite INR_IZR_INZ in LN. cbn [Z.of_nat Pos.of_succ_nat Pos.succ] in LN.
    assert (D3 : Rabs (B2R third - / 3) <= u / 3) by (apply Rabs_le; lra).
    pose proof (rel_exponent (u / 3) 5 (/ 3) (B2R third) x D3 LN ltac:(lra)) as RE.
    assert (PL : 0.2 <= Rpower x (/ 3)). { rewrite <- (pow_cube_root 0.2) by lra. apply Rle_Rpower_l; [lra|]. split; [apply pow_lt; lra|]. lra. }
    assert (PU : Rpower x (/ 3) <= 1.05) by (apply cube_root_le; lra).
    pose proof (rel_bounds _ _ _ RE) as BE. assert (PB : 0.19 <= Rpower x (B2R third) <= 1.06) by (clear - BE PL PU U0 U; nra).
    destruct (PW t third F Ft) as [F1 R1]; [fold x; lra|lra|fold x; lra|]. fold x in R1. change (@rpowf _ ops) with (l_powf L). split; [exact F1|].
    assert (RR : rel (5.8 * u) (B2R (l_powf L t third)) (Rpower x (/ 3))). { apply (rel_weaken (4 * u + 1.01 * (1.01 * (u / 3 * 5)))); [apply (rel_trans _ _ _ _ _ R1 RE); lra|lra|lra]. }
    assert (A : Rabs (Rpower x (/ 3) - cie_f x) <= 0.25 * u).
    { unfold cie_f. destruct (Rlt_dec _ _) as [K|K]; [replace (Rpower x (/ 3) - Rpower x (/ 3)) with 0 by ring; rewrite Rabs_R0; lra|].
      assert (Q : Rpower x (/ 3) <= 6 / 29) by (apply cube_root_le; lra). assert (Q2 : (1 - u) * (6 / 29) <= Rpower x (/ 3)). { rewrite <- (pow_cube_root ((1 - u) * (6 / 29))) by lra. apply Rle_Rpower_l; [lra|]. split; [apply pow_lt; lra|]. eapply Rle_trans; [|exact C]. eapply Rle_trans; [|apply Be]. replace (((1 - u) * (6 / 29)) ^ 3) with ((1 - u) * ((1 - u) * (1 - u)) * (6 / 29) ^ 3) by ring. rewrite <- eps_cube. apply Rmult_le_compat_r; [lra|]. clear - U0 U. assert (0 <= u * u <= u * 1) by (split; [apply Rmult_le_pos; lra|apply Rmult_le_compat_l; lra]). assert (0 <= u * u * u) by (apply Rmult_le_pos; lra). assert (u * u * 1 <= u * 1) by lra. nra. }
      apply Rabs_le. split; lra. }
    unfold rel in RR. assert (5.8 * u * Rpower x (/ 3) <= 5.8 * u * 1.05) by (apply Rmult_le_compat_l; lra). pose proof (near_trans _ _ _ _ _ RR A). lra.
  - set (x := B2R t) in *. destruct l_16 as [G1 G2]. destruct l_116 as [I1 I2].
    change (@rmul _ ops fkap t) with (Bmult mode_NE fkap t). change (@radd _ ops) with (Bplus mode_NE (prec := prec) (emax := emax)).
    assert (X : x <= 0.0089) by lra. assert (KX : Rabs (B2R fkap * x) <= 137) by (apply Rabs_le; split; nra).
    assert (K1 : Rabs (B2R fkap * x - 24389 / 27 * x) <= 137 * u). { rewrite <- Rmult_minus_distr_r, Rabs_mult. assert (Rabs x <= 0.151) by (apply Rabs_le; lra). unfold rel in Rk. apply Rle_trans with (u * (24389 / 27) * 0.151); [apply Rmult_le_compat; try apply Rabs_pos; lra|lra]. }
    destruct (amul fkap t 137 Fk F KX ltac:(lra)) as [F1 E1]. fold x in E1. set (v1 := Bmult mode_NE fkap t) in *.
    pose proof (near_trans _ _ _ _ _ E1 K1) as E1'. apply Rabs_le_inv in E1'.
    assert (S1 : Rabs (B2R v1 + B2R (lit 16.0%Q)) <= 121) by (rewrite G2; apply Rabs_le; split; lra).
    destruct (aadd v1 (lit 16.0%Q) 121 F1 G1 S1 ltac:(lra)) as [F2 E2]. rewrite G2 in E2, S1. set (v2 := Bplus mode_NE v1 (lit 16.0%Q)) in *. apply Rabs_le_inv in E2, S1.
    assert (S2 : Rabs (B2R v2 / B2R (lit 116.0%Q)) <= 1.1) by (rewrite I2; apply Rabs_le; split; lra).
    destruct (adiv v2 (lit 116.0%Q) 1.1 F2 ltac:(lra) S2 ltac:(lra)) as [F3 E3]. split; [exact F3|]. rewrite I2 in E3.
    assert (A : Rabs ((24389 / 27 * x + 16) / 116 - cie_f x) <= 0.25 * u).
    { unfold cie_f. destruct (Rlt_dec _ _) as [K|K]; [|match goal with |- Rabs (?a - ?a) <= _ => replace (a - a) with 0 by ring end; rewrite Rabs_R0; lra].
      assert (Q2 : Rpower x (/ 3) <= (1 + u / 3) * (6 / 29)). { rewrite <- (pow_cube_root ((1 + u / 3) * (6 / 29))) by lra. apply Rle_Rpower_l; [lra|]. split; [lra|]. eapply Rle_trans; [exact C|]. eapply Rle_trans; [apply Be|]. replace (((1 + u / 3) * (6 / 29)) ^ 3) with ((1 + u + u / 3 * u + u / 27 * u * u) * (6 / 29) ^ 3) by field. rewrite <- eps_cube. apply Rmult_le_compat_r; [lra|]. assert (0 <= u * u) by (apply Rmult_le_pos; lra). assert (0 <= u * u * u) by (apply Rmult_le_pos; lra). lra. }
      assert (Q : 6 / 29 <= Rpower x (/ 3)). { rewrite <- (pow_cube_root (6 / 29)) by lra. apply Rle_Rpower_l; [lra|]. split; [lra|]. rewrite <- eps_cube. lra. }
      apply Rabs_le. split; lra. }
    apply Rabs_le_inv in E3, A. apply Rabs_le. split; lra.
Qed.

(* one channel, ratio to the white included *)
Lemma ratio_ok (x w : fl) : is_finite x = true -> 50 <= B2R w <= 110 -> - 0.15 <= B2R x / B2R w <= 1.15 ->
  let f := @lab_f _ ops (Bdiv mode_NE x w) in is_finite f = true /\ Rabs (B2R f - cie_f (B2R x / B2R w)) <= 7.6 * u /\ Rabs (B2R f) <= 1.05.
Proof.
  intros F W H. destruct (u24 prec P5) as [U0 U]. destruct (eta_le prec emax E5) as [T0 T]. pose proof (tiny_le emax E5) as [W0 W1]. pose proof huge as G.
  assert (HA : Rabs (B2R x / B2R w) <= 1.15) by (apply Rabs_le; lra). destruct (rnd_under _ _ HA ltac:(lra)) as [_ B]. destruct (fdiv prec emax x w F ltac:(lra) B) as [D1 D2].
  pose proof (rnd_any prec emax (B2R x / B2R w)) as R. rewrite <- D2 in R. set (t := Bdiv mode_NE x w) in *. set (q := B2R x / B2R w) in *.
  assert (N : Rabs (B2R t - q) <= 1.2 * u) by (assert (u * Rabs q <= u * 1.15) by (apply Rmult_le_compat_l; lra); lra). pose proof N as N'. apply Rabs_le_inv in N'.
  destruct (lab_f_ok t D1 ltac:(lra)) as [F1 E1].
  assert (S : Rabs (cie_f (B2R t) - cie_f q) <= 1.19 * u).
  { destruct (Rle_dec q 0.15) as [K|K].
    - eapply Rle_trans; [apply cie_f_lip|]. assert (Rabs q <= 0.15) by (apply Rabs_le; lra). assert (u * Rabs q <= u * 0.15) by (apply Rmult_le_compat_l; lra). lra.
    - assert (RT : rel u (B2R t) q) by (rewrite D2; apply rnd_rel; try assumption; lra). pose proof (rel_pow u (/ 3) _ _ RT ltac:(lra) ltac:(lra) ltac:(lra)) as RP. unfold rel in RP.
      assert (PU : Rpower q (/ 3) <= 1.05) by (apply cube_root_le; lra). pose proof (Rpower_gt0 q (/ 3)).
      unfold cie_f. destruct (Rlt_dec _ (B2R t)); [|lra]. destruct (Rlt_dec _ q); [|lra]. eapply Rle_trans; [exact RP|]. apply Rle_trans with (1.02 * (/ 3 * u) * 1.05); [apply Rmult_le_compat_l; lra|lra]. }
  pose proof (near_trans _ _ _ _ _ E1 S) as E. pose proof (cie_f_bound q H). cbv zeta. split; [exact F1|]. split; [lra|]. apply Rabs_le_inv in E. apply Rabs_le. lra.
Qed.

(* ---- back ---- *)
Lemma pieces_meet f : f ^ 3 - (116 * f - 16) * 27 / 24389 = (f - 6 / 29) * (f - 6 / 29) * (f + 12 / 29).
Proof. field. Qed.
Lemma switch f : Rabs (f - 6 / 29) <= 100 * u -> Rabs (f ^ 3 - (116 * f - 16) * 27 / 24389) <= 0.01 * u.
Proof.
  intro H. destruct (u24 prec P5) as [U0 U]. rewrite pieces_meet, !Rabs_mult. assert (K : Rabs (f + 12 / 29) <= 1) by (apply Rabs_le_inv in H; apply Rabs_le; lra).
  pose proof (Rabs_pos (f - 6 / 29)). pose proof (Rabs_pos (f + 12 / 29)). apply Rle_trans with (100 * u * (100 * u) * 1); [repeat apply Rmult_le_compat; try lra; apply Rmult_le_pos; lra|]. nra.
Qed.
Lemma cubed f : Rabs f <= 1.06 -> Rabs (f ^ 3) <= 1.192.
Proof. intro H. rewrite <- RPow_abs. pose proof (Rabs_pos f). apply Rle_trans with (1.06 ^ 3); [apply pow_incr; lra|lra]. Qed.
Lemma cube_above f : 216 / 24389 - 5 * u <= f ^ 3 -> 6 / 29 - 100 * u <= f.
Proof. intro H. destruct (u24 prec P5) as [U0 U]. destruct (Rle_dec (6 / 29 - 100 * u) f) as [|N]; [assumption|exfalso]. assert (f ^ 3 < (6 / 29 - 100 * u) ^ 3). { apply Rnot_le_lt in N. destruct (Rle_dec 0 f); [|assert (0 < (- f) ^ 3) by (apply pow_lt; lra); assert (0 < (6 / 29 - 100 * u) ^ 3) by (apply pow_lt; lra); lra]. replace (f ^ 3) with (f * f * f) by ring. replace ((6 / 29 - 100 * u) ^ 3) with ((6 / 29 - 100 * u) * (6 / 29 - 100 * u) * (6 / 29 - 100 * u)) by ring. set (z := 6 / 29 - 100 * u) in *. assert (0 < z) by (unfold z; lra). assert (f * f <= z * z) by (apply Rmult_le_compat; lra). assert (0 < z * z) by nra. nra. } rewrite eps_cube in H. assert ((6 / 29 - 100 * u) ^ 3 <= (6 / 29) ^ 3 - 5 * u). { set (v := 100 * u). replace (5 * u) with (0.05 * v) by (unfold v; lra). assert (0 < v <= 0.0001) by (unfold v; lra). clearbody v. nra. } lra. Qed.
Lemma cube_below f : f ^ 3 <= 216 / 24389 + 5 * u -> f <= 6 / 29 + 100 * u.
Proof. intro H. destruct (u24 prec P5) as [U0 U]. destruct (Rle_dec f (6 / 29 + 100 * u)) as [|N]; [assumption|exfalso]. apply Rnot_le_lt in N. set (z := 6 / 29 + 100 * u) in *. assert (Z : 6 / 29 < z) by (unfold z; lra). assert (z ^ 3 < f ^ 3) by (apply cube_gt; lra). assert ((6 / 29) ^ 3 + 5 * u <= z ^ 3). { unfold z. set (v := 100 * u). replace (5 * u) with (0.05 * v) by (unfold v; lra). assert (0 < v <= 0.0001) by (unfold v; lra). clearbody v. nra. } rewrite eps_cube in H. lra. Qed.
Lemma over_kappa (y e M : R) (v : fl) : is_finite v = true -> Rabs (B2R v - y) <= e -> Rabs y <= 140 -> e <= 1 ->
  is_finite (Bdiv mode_NE v fkap) = true /\ Rabs (B2R (Bdiv mode_NE v fkap) - y * 27 / 24389) <= e / 900 + 0.4 * u.
Proof.
  intros F H Y E. destruct (u24 prec P5) as [U0 U]. destruct (eta_le prec emax E5) as [T0 T]. destruct fkap_ok as [Fk Rk]. pose proof (rel_bounds _ _ _ Rk) as Bk.
  pose proof (rel_inv u (B2R fkap) (24389 / 27) ltac:(lra) ltac:(lra) Rk) as RI. unfold rel in RI. replace (/ (24389 / 27)) with (27 / 24389) in RI by field. assert (KI : 0 < / B2R fkap <= / 900) by (split; [apply Rinv_0_lt_compat; lra|apply Rinv_le; lra]).
  set (k := / B2R fkap) in *. assert (Rabs (B2R v) <= 141). { replace (B2R v) with ((B2R v - y) + y) by ring. tri. lra. }
  assert (S : Rabs (B2R v / B2R fkap) <= 0.16). { unfold Rdiv. fold k. rewrite Rabs_mult, (Rabs_pos_eq k) by lra. apply Rle_trans with (141 * / 900); [apply Rmult_le_compat; try apply Rabs_pos; lra|lra]. }
  destruct (adiv v fkap 0.16 F ltac:(lra) S ltac:(lra)) as [F1 E1]. split; [exact F1|]. change (B2R v / B2R fkap) with (B2R v * k) in E1.
  assert (A : Rabs (B2R v * k - y * k) <= e / 900). { rewrite <- Rmult_minus_distr_r, Rabs_mult, (Rabs_pos_eq k) by lra. apply Rle_trans with (e * / 900); [apply Rmult_le_compat; try apply Rabs_pos; lra|lra]. }
  assert (C : Rabs (y * k - y * 27 / 24389) <= 0.2 * u). { replace (y * k - y * 27 / 24389) with (y * (k - 27 / 24389)) by field. rewrite Rabs_mult. apply Rle_trans with (140 * (1.01 * u * (27 / 24389))); [apply Rmult_le_compat; try apply Rabs_pos; lra|]. lra. }
  pose proof (near_trans _ _ _ _ _ E1 A) as Q. pose proof (near_trans _ _ _ _ _ Q C). lra.
Qed.
(* x_r and z_r *)
Definition finv (f : fl) : fl := if Bltb feps (l_powi L f 3) then l_powi L f 3 else Bdiv mode_NE (Bminus mode_NE (Bmult mode_NE (lit 116.0%Q) f) (lit 16.0%Q)) fkap.
Lemma finv_ok f : is_finite f = true -> Rabs (B2R f) <= 1.06 -> is_finite (finv f) = true /\ Rabs (B2R (finv f) - cie_g (B2R f)) <= 5 * u.
Proof.
  intros F H. destruct (u24 prec P5) as [U0 U]. destruct (eta_le prec emax E5) as [T0 T]. destruct feps_ok as [Fe Re]. pose proof (rel_bounds _ _ _ Re) as Be.
  destruct (PI f F ltac:(lra)) as [F3 E3]. pose proof (cubed _ H) as C3. set (x := B2R f) in *. assert (E3' : Rabs (B2R (l_powi L f 3) - x ^ 3) <= 4.8 * u) by (assert (4 * u * Rabs (x ^ 3) <= 4 * u * 1.192) by (apply Rmult_le_compat_l; lra); lra). pose proof E3' as N. apply Rabs_le_inv in N.
  unfold finv. destruct (lt_cases prec emax feps _ Fe F3) as [[-> C]|[-> C]].
  - split; [exact F3|]. assert (A : Rabs (x ^ 3 - cie_g x) <= 0.01 * u).
    { unfold cie_g. destruct (Rlt_dec _ _) as [K|K]; [replace (x ^ 3 - x ^ 3) with 0 by ring; rewrite Rabs_R0; lra|]. apply switch. pose proof (cube_above x ltac:(lra)). apply Rabs_le. lra. }
    pose proof (near_trans _ _ _ _ _ E3' A). lra.
  - destruct l_116 as [I1 I2]. destruct l_16 as [G1 G2].
    assert (S1 : Rabs (B2R (lit 116.0%Q) * B2R f) <= 123) by (rewrite I2, Rabs_mult, (Rabs_pos_eq 116) by lra; fold x; lra).
    destruct (amul _ f 123 I1 F S1 ltac:(lra)) as [M1 M2]. rewrite I2 in M2, S1. fold x in M2, S1. set (v1 := Bmult mode_NE (lit 116.0%Q) f) in *. apply Rabs_le_inv in M2, S1.
    assert (S2 : Rabs (B2R v1 - B2R (lit 16.0%Q)) <= 139.5) by (rewrite G2; apply Rabs_le; lra).
    destruct (asub v1 _ 139.5 M1 G1 S2 ltac:(lra)) as [D1 D2]. rewrite G2 in D2. set (v2 := Bminus mode_NE v1 (lit 16.0%Q)) in *. apply Rabs_le_inv in D2.
    destruct (over_kappa (116 * x - 16) (263 * u) 0 v2 D1) as [Q1 Q2]; [apply Rabs_le; lra|apply Rabs_le; lra|lra|]. split; [exact Q1|].
    assert (A : Rabs ((116 * x - 16) * 27 / 24389 - cie_g x) <= 0.01 * u).
    { unfold cie_g. destruct (Rlt_dec _ _) as [K|K]; [|match goal with |- Rabs (?a - ?a) <= _ => replace (a - a) with 0 by ring end; rewrite Rabs_R0; lra]. rewrite <- Rabs_Ropp. replace (- ((116 * x - 16) * 27 / 24389 - x ^ 3)) with (x ^ 3 - (116 * x - 16) * 27 / 24389) by ring. apply switch. pose proof (cube_below x ltac:(lra)). apply Rabs_le. lra. }
    pose proof (near_trans _ _ _ _ _ Q2 A). lra.
Qed.
(* y_r, from L itself *)
Definition fy_of (l : fl) : fl := Bdiv mode_NE (Bplus mode_NE l (lit 16.0%Q)) (lit 116.0%Q).
Definition yinv (l : fl) : fl := if Bltb (Bmult mode_NE fkap feps) l then l_powi L (fy_of l) 3 else Bdiv mode_NE l fkap.
Lemma fy_ok l : is_finite l = true -> Rabs (B2R l + 16) <= 122 -> is_finite (fy_of l) = true /\ Rabs (B2R (fy_of l) - (B2R l + 16) / 116) <= 2.12 * u.
Proof.
  intros F H. destruct (u24 prec P5) as [U0 U]. destruct (eta_le prec emax E5) as [T0 T]. destruct l_116 as [I1 I2]. destruct l_16 as [G1 G2]. unfold fy_of.
  destruct (aadd l _ 122 F G1 ltac:(rewrite G2; exact H) ltac:(lra)) as [A1 A2]. rewrite G2 in A2. set (v := Bplus mode_NE l (lit 16.0%Q)) in *. apply Rabs_le_inv in A2, H.
  assert (S : Rabs (B2R v / B2R (lit 116.0%Q)) <= 1.06) by (rewrite I2; apply Rabs_le; lra). destruct (adiv v (lit 116.0%Q) 1.06 A1 ltac:(lra) S ltac:(lra)) as [D1 D2]. rewrite I2 in D2. split; [exact D1|]. apply Rabs_le_inv in D2. apply Rabs_le. lra.
Qed.
Lemma yinv_ok l : is_finite l = true -> Rabs (B2R l + 16) <= 122 -> is_finite (yinv l) = true /\ Rabs (B2R (yinv l) - cie_g ((B2R l + 16) / 116)) <= 13 * u.
Proof.
  intros F H. destruct (u24 prec P5) as [U0 U]. destruct (eta_le prec emax E5) as [T0 T]. destruct feps_ok as [Fe Re]. destruct fkap_ok as [Fk Rk]. pose proof (rel_bounds _ _ _ Re) as Be. pose proof (rel_bounds _ _ _ Rk) as Bk.
  destruct (fy_ok l F H) as [Fy Ey]. pose proof H as H'. pose proof Ey as Ey'. apply Rabs_le_inv in H', Ey'. assert (Y : Rabs (B2R (fy_of l)) <= 1.06) by (apply Rabs_le; lra).
  pose proof (rel_mul u u _ _ _ _ Rk Re ltac:(lra) ltac:(lra) ltac:(lra) ltac:(lra)) as RM. replace (24389 / 27 * (216 / 24389)) with 8 in RM by lra. pose proof (rel_bounds _ _ _ RM) as BM.
  assert (S : Rabs (B2R fkap * B2R feps) <= 9) by (apply Rabs_le; lra). destruct (amul fkap feps 9 Fk Fe S ltac:(lra)) as [M1 M2]. apply Rabs_le_inv in M2. set (th := Bmult mode_NE fkap feps) in *.
  assert (TH : 8 - 26 * u <= B2R th <= 8 + 26 * u) by lra. set (x := (B2R l + 16) / 116) in *. assert (XL : B2R l = 116 * x - 16) by (unfold x; field).
  unfold yinv. fold th. destruct (lt_cases prec emax th l M1 F) as [[-> C]|[-> C]].
  - destruct (PI (fy_of l) Fy ltac:(lra)) as [F3 E3]. split; [exact F3|]. pose proof (cubed _ Y) as C3. set (y := B2R (fy_of l)) in *.
    assert (4 * u * Rabs (y ^ 3) <= 4 * u * 1.192) by (apply Rmult_le_compat_l; lra).
    assert (X : Rabs x <= 1.055) by (apply Rabs_le; lra). apply Rabs_le_inv in X, Y.
    assert (D : Rabs (y ^ 3 - x ^ 3) <= 7.5 * u). { rewrite cube_diff, Rabs_mult. apply Rle_trans with (2.12 * u * 3.38); [apply Rmult_le_compat; try apply Rabs_pos; [exact Ey|apply quad_bound; apply Rabs_le; assumption]|lra]. }
    assert (A : Rabs (x ^ 3 - cie_g x) <= 0.01 * u).
    { unfold cie_g. destruct (Rlt_dec _ _) as [K|K]; [replace (x ^ 3 - x ^ 3) with 0 by ring; rewrite Rabs_R0; lra|]. apply switch. apply Rabs_le. lra. }
    pose proof (near_trans _ _ _ _ _ E3 D) as Q. pose proof (near_trans _ _ _ _ _ Q A). lra.
  - destruct (over_kappa (116 * x - 16) 0 0 l F) as [Q1 Q2]; [rewrite XL; match goal with |- Rabs (?a - ?a) <= _ => replace (a - a) with 0 by ring end; rewrite Rabs_R0; lra|apply Rabs_le; lra|lra|]. split; [exact Q1|].
    assert (A : Rabs ((116 * x - 16) * 27 / 24389 - cie_g x) <= 0.01 * u).
    { unfold cie_g. destruct (Rlt_dec _ _) as [K|K]; [|match goal with |- Rabs (?a - ?a) <= _ => replace (a - a) with 0 by ring end; rewrite Rabs_R0; lra]. rewrite <- Rabs_Ropp. replace (- ((116 * x - 16) * 27 / 24389 - x ^ 3)) with (x ^ 3 - (116 * x - 16) * 27 / 24389) by ring. apply switch. apply Rabs_le. lra. }
    pose proof (near_trans _ _ _ _ _ Q2 A). lra.
Qed.
(* ---- the whole of xyz_to_lab and lab_to_xyz ---- *)
(* a component of a colour against that of the white *)
Definition in_gamut (x w : fl) : Prop := is_finite x = true /\ is_finite w = true /\ 50 <= B2R w <= 110 /\ - 0.15 <= B2R x / B2R w <= 1.15.
(* rounding in L, a, b once the three curve values are there *)
Lemma lab_parts (fx fy fz : fl) : is_finite fx = true -> is_finite fy = true -> is_finite fz = true -> Rabs (B2R fx) <= 1.05 -> Rabs (B2R fy) <= 1.05 -> Rabs (B2R fz) <= 1.05 ->
  let l := Bminus mode_NE (Bmult mode_NE (lit 116.0%Q) fy) (lit 16.0%Q) in let a := Bmult mode_NE (lit 500.0%Q) (Bminus mode_NE fx fy) in let b := Bmult mode_NE (lit 200.0%Q) (Bminus mode_NE fy fz) in
  (is_finite l = true /\ Rabs (B2R l - (116 * B2R fy - 16)) <= 262 * u) /\ (is_finite a = true /\ Rabs (B2R a - 500 * (B2R fx - B2R fy)) <= 2102 * u) /\ (is_finite b = true /\ Rabs (B2R b - 200 * (B2R fy - B2R fz)) <= 842 * u).
Proof.
  intros Fx Fy Fz X Y Z. destruct (u24 prec P5) as [U0 U]. destruct (eta_le prec emax E5) as [T0 T]. destruct l_116 as [I1 I2]. destruct l_16 as [G1 G2]. destruct l_500 as [J1 J2]. destruct l_200 as [K1 K2].
  apply Rabs_le_inv in X, Y, Z. cbv zeta. split; [|split].
  - assert (S1 : Rabs (B2R (lit 116.0%Q) * B2R fy) <= 122) by (rewrite I2; apply Rabs_le; lra). destruct (amul _ fy 122 I1 Fy S1 ltac:(lra)) as [M1 M2]. rewrite I2 in M2. apply Rabs_le_inv in M2. set (v := Bmult mode_NE _ fy) in *.
    assert (S2 : Rabs (B2R v - B2R (lit 16.0%Q)) <= 139) by (rewrite G2; apply Rabs_le; lra). destruct (asub v _ 139 M1 G1 S2 ltac:(lra)) as [D1 D2]. split; [exact D1|]. rewrite G2 in D2. apply Rabs_le_inv in D2. apply Rabs_le. lra.
  - assert (S1 : Rabs (B2R fx - B2R fy) <= 2.1) by (apply Rabs_le; lra). destruct (asub fx fy 2.1 Fx Fy S1 ltac:(lra)) as [M1 M2]. apply Rabs_le_inv in M2. set (v := Bminus mode_NE fx fy) in *.
    assert (S2 : Rabs (B2R (lit 500.0%Q) * B2R v) <= 1051) by (rewrite J2; apply Rabs_le; lra). destruct (amul _ v 1051 J1 M1 S2 ltac:(lra)) as [D1 D2]. split; [exact D1|]. rewrite J2 in D2. apply Rabs_le_inv in D2. apply Rabs_le. lra.
  - assert (S1 : Rabs (B2R fy - B2R fz) <= 2.1) by (apply Rabs_le; lra). destruct (asub fy fz 2.1 Fy Fz S1 ltac:(lra)) as [M1 M2]. apply Rabs_le_inv in M2. set (v := Bminus mode_NE fy fz) in *.
    assert (S2 : Rabs (B2R (lit 200.0%Q) * B2R v) <= 421) by (rewrite K2; apply Rabs_le; lra). destruct (amul _ v 421 K1 M1 S2 ltac:(lra)) as [D1 D2]. split; [exact D1|]. rewrite K2 in D2. apply Rabs_le_inv in D2. apply Rabs_le. lra.
Qed.
Lemma to_lab_ok x y z wx wy wz : in_gamut x wx -> in_gamut y wy -> in_gamut z wz ->
  let c := @xyz_to_lab _ ops (Xyz x y z) (Xyz wx wy wz) in let '(l, a, b) := to_lab (B2R x, B2R y, B2R z) (B2R wx, B2R wy, B2R wz) in
  (is_finite (lab_L c) = true /\ Rabs (B2R (lab_L c) - l) <= 1150 * u) /\ (is_finite (lab_a c) = true /\ Rabs (B2R (lab_a c) - a) <= 9800 * u) /\ (is_finite (lab_b c) = true /\ Rabs (B2R (lab_b c) - b) <= 3900 * u).
Proof.
  intros (X1 & _ & X3 & X4) (Y1 & _ & Y3 & Y4) (Z1 & _ & Z3 & Z4). destruct (u24 prec P5) as [U0 U]. destruct (ratio_ok x wx X1 X3 X4) as (A1 & A2 & A3). destruct (ratio_ok y wy Y1 Y3 Y4) as (B1 & B2 & B3). destruct (ratio_ok z wz Z1 Z3 Z4) as (C1 & C2 & C3).
  destruct (lab_parts _ _ _ A1 B1 C1 A3 B3 C3) as ((L1 & L2) & (M1 & M2) & (N1 & N2)). cbv zeta. cbn [to_lab]. apply Rabs_le_inv in A2, B2, C2.
  unfold xyz_to_lab, xyz_div. cbn [xyz_x xyz_y xyz_z lab_L lab_a lab_b].
  split; [split; [exact L1|]|split; split; [exact M1| |exact N1|]].
  - eapply Rle_trans; [apply (near_trans _ _ _ _ (882 * u) L2), Rabs_le; lra|lra].
  - eapply Rle_trans; [apply (near_trans _ _ _ _ (7600 * u) M2), Rabs_le; lra|lra].
  - eapply Rle_trans; [apply (near_trans _ _ _ _ (3040 * u) N2), Rabs_le; lra|lra].
Qed.
Lemma round_trip x y z wx wy wz : in_gamut x wx -> in_gamut y wy -> in_gamut z wz ->
  let c := @lab_to_xyz _ ops (@xyz_to_lab _ ops (Xyz x y z) (Xyz wx wy wz)) (Xyz wx wy wz) in
  (is_finite (xyz_x c) = true /\ Rabs (B2R (xyz_x c) - B2R x) <= 72 * u * B2R wx) /\ (is_finite (xyz_y c) = true /\ Rabs (B2R (xyz_y c) - B2R y) <= 72 * u * B2R wy) /\
  (is_finite (xyz_z c) = true /\ Rabs (B2R (xyz_z c) - B2R z) <= 72 * u * B2R wz).
Proof.
  intros (X1 & X2 & X3 & X4) (Y1 & Y2 & Y3 & Y4) (Z1 & Z2 & Z3 & Z4). destruct (u24 prec P5) as [U0 U]. destruct (eta_le prec emax E5) as [T0 T].
  destruct (ratio_ok x wx X1 X3 X4) as (A1 & A2 & A3). destruct (ratio_ok y wy Y1 Y3 Y4) as (B1 & B2 & B3). destruct (ratio_ok z wz Z1 Z3 Z4) as (C1 & C2 & C3).
  destruct (lab_parts _ _ _ A1 B1 C1 A3 B3 C3) as ((L1 & L2) & (M1 & M2) & (N1 & N2)). cbv zeta.
  unfold xyz_to_lab, xyz_div. cbn [xyz_x xyz_y xyz_z].
  change (@rsub _ ops (@rmul _ ops (@rlit _ ops 116.0%Q) ?f) (@rlit _ ops 16.0%Q)) with (Bminus mode_NE (Bmult mode_NE (lit 116.0%Q) f) (lit 16.0%Q)).
  set (fx := @lab_f _ ops (Bdiv mode_NE x wx)) in *. set (fy := @lab_f _ ops (Bdiv mode_NE y wy)) in *. set (fz := @lab_f _ ops (Bdiv mode_NE z wz)) in *.
  set (l := Bminus mode_NE (Bmult mode_NE (lit 116.0%Q) fy) (lit 16.0%Q)) in *. set (a := Bmult mode_NE (lit 500.0%Q) _) in *. set (b := Bmult mode_NE (lit 200.0%Q) _) in *.
  unfold lab_to_xyz, xyz_mul. cbn [xyz_x xyz_y xyz_z lab_L lab_a lab_b].
  match goal with |- (is_finite (?m ?p ?q) = true /\ _) /\ (is_finite (?m' ?p' ?q') = true /\ _) /\ (is_finite (?m'' ?p'' ?q'') = true /\ _) =>
    change (m p q) with (Bmult mode_NE (finv (Bplus mode_NE (Bdiv mode_NE a (lit 500.0%Q)) (fy_of l))) wx);
    change (m' p' q') with (Bmult mode_NE (yinv l) wy);
    change (m'' p'' q'') with (Bmult mode_NE (finv (Bminus mode_NE (fy_of l) (Bdiv mode_NE b (lit 200.0%Q)))) wz) end.
  destruct l_500 as [J1 J2]. destruct l_200 as [K1 K2]. apply Rabs_le_inv in L2, M2, N2. pose proof A3 as A3'. pose proof B3 as B3'. pose proof C3 as C3'. apply Rabs_le_inv in A3', B3', C3'.
  assert (SL : Rabs (B2R l + 16) <= 122) by (apply Rabs_le; lra). destruct (fy_ok l L1 SL) as [F1 F2]. apply Rabs_le_inv in F2. set (gy := fy_of l) in *.
  assert (GY : Rabs (B2R gy - B2R fy) <= 4.4 * u) by (apply Rabs_le; lra). pose proof GY as GY'. apply Rabs_le_inv in GY'.
  pose proof (cie_f_bound _ X4) as PX. pose proof (cie_f_bound _ Y4) as PY. pose proof (cie_f_bound _ Z4) as PZ.
  (* the last step, common to the three *)
  assert (LAST : forall (g w v : fl) (q e : R), is_finite v = true -> is_finite w = true -> 50 <= B2R w <= 110 -> - 0.15 <= q / B2R w <= 1.15 -> Rabs (B2R v - q / B2R w) <= 70.8 * u ->
     is_finite (Bmult mode_NE v w) = true /\ Rabs (B2R (Bmult mode_NE v w) - q) <= 72 * u * B2R w).
  { intros _ w v q _ Fv Fw Hw Hq Hv. pose proof Hv as Hv'. apply Rabs_le_inv in Hv'. assert (SV : Rabs (B2R v) <= 1.16) by (apply Rabs_le; lra).
    assert (SW : Rabs (B2R v * B2R w) <= 1.16 * B2R w) by (rewrite Rabs_mult, (Rabs_pos_eq (B2R w)) by lra; apply Rmult_le_compat_r; lra).
    destruct (amul v w _ Fv Fw SW ltac:(lra)) as [Q1 Q2]. split; [exact Q1|]. assert (D : Rabs (B2R v * B2R w - q) <= 70.8 * u * B2R w). { replace (B2R v * B2R w - q) with ((B2R v - q / B2R w) * B2R w) by (field; lra). rewrite Rabs_mult, (Rabs_pos_eq (B2R w)) by lra. apply Rmult_le_compat_r; lra. }
    pose proof (near_trans _ _ _ _ _ Q2 D). assert (0 < u * B2R w) by (apply Rmult_lt_0_compat; lra). assert (u * 50 <= u * B2R w) by (apply Rmult_le_compat_l; lra). lra. }
  assert (BACK : forall (f v : fl) (q : R), - 0.15 <= q <= 1.15 -> Rabs (B2R f - cie_f q) <= 19.5 * u -> Rabs (B2R v - cie_g (B2R f)) <= 5 * u -> Rabs (B2R v - q) <= 70.8 * u).
  { intros f v q Hq Hf Hv. pose proof (cie_f_bound q Hq) as PQ. pose proof Hf as Hf'. apply Rabs_le_inv in Hf'. pose proof (cie_g_lip 1.06 (B2R f) (cie_f q) ltac:(lra) ltac:(lra) ltac:(lra)) as G. rewrite cie_gf in G.
    assert (3 * (1.06 * 1.06) * Rabs (B2R f - cie_f q) <= 3 * (1.06 * 1.06) * (19.5 * u)) by (apply Rmult_le_compat_l; lra). pose proof (near_trans _ _ _ _ _ Hv G). lra. }
  split; [|split].
  - assert (S1 : Rabs (B2R a / B2R (lit 500.0%Q)) <= 2.11) by (rewrite J2; apply Rabs_le; lra). destruct (adiv a (lit 500.0%Q) 2.11 M1 ltac:(lra) S1 ltac:(lra)) as [D1 D2]. rewrite J2 in D2. apply Rabs_le_inv in D2. set (d := Bdiv mode_NE a _) in *.
    assert (S2 : Rabs (B2R d + B2R gy) <= 1.055) by (apply Rabs_le; lra). destruct (aadd d gy 1.055 D1 F1 S2 ltac:(lra)) as [E1 E2]. apply Rabs_le_inv in E2. set (f := Bplus mode_NE d gy) in *.
    apply Rabs_le_inv in A2. assert (FE : Rabs (B2R f - cie_f (B2R x / B2R wx)) <= 19.5 * u) by (apply Rabs_le; lra). assert (FB : Rabs (B2R f) <= 1.06) by (apply Rabs_le_inv in FE; apply Rabs_le; lra).
    destruct (finv_ok f E1 FB) as [V1 V2]. apply (LAST f wx (finv f) (B2R x) 0 V1 X2 X3 X4). exact (BACK f _ _ X4 FE V2).
  - destruct (yinv_ok l L1 SL) as [V1 V2]. apply (LAST l wy (yinv l) (B2R y) 0 V1 Y2 Y3 Y4). apply Rabs_le_inv in B2. set (p := (B2R l + 16) / 116) in *. assert (FE : Rabs (p - cie_f (B2R y / B2R wy)) <= 9.9 * u) by (unfold p; apply Rabs_le; lra).
    pose proof FE as FE'. apply Rabs_le_inv in FE'. pose proof (cie_g_lip 1.06 p (cie_f (B2R y / B2R wy)) ltac:(lra) ltac:(lra) ltac:(lra)) as G. rewrite cie_gf in G.
    assert (3 * (1.06 * 1.06) * Rabs (p - cie_f (B2R y / B2R wy)) <= 3 * (1.06 * 1.06) * (9.9 * u)) by (apply Rmult_le_compat_l; lra). pose proof (near_trans _ _ _ _ _ V2 G). lra.
  - assert (S1 : Rabs (B2R b / B2R (lit 200.0%Q)) <= 2.11) by (rewrite K2; apply Rabs_le; lra). destruct (adiv b (lit 200.0%Q) 2.11 N1 ltac:(lra) S1 ltac:(lra)) as [D1 D2]. rewrite K2 in D2. apply Rabs_le_inv in D2. set (d := Bdiv mode_NE b _) in *.
    assert (S2 : Rabs (B2R gy - B2R d) <= 1.055) by (apply Rabs_le; lra). destruct (asub gy d 1.055 F1 D1 S2 ltac:(lra)) as [E1 E2]. apply Rabs_le_inv in E2. set (f := Bminus mode_NE gy d) in *.
    apply Rabs_le_inv in C2. assert (FE : Rabs (B2R f - cie_f (B2R z / B2R wz)) <= 19.5 * u) by (apply Rabs_le; lra). assert (FB : Rabs (B2R f) <= 1.06) by (apply Rabs_le_inv in FE; apply Rabs_le; lra).
    destruct (finv_ok f E1 FB) as [V1 V2]. apply (LAST f wz (finv f) (B2R z) 0 V1 Z2 Z3 Z4). exact (BACK f _ _ Z4 FE V2).
Qed.
End F.
