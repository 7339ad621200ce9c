(* the weighting tables in f64 at 10 nm: every sum tracked with the number of terms that went into it *)
From Coq Require Import Reals ZArith QArith Qreals Lra Lia Bool List Sorting.Sorted.
From Flocq Require Import Core BinarySingleNaN.
From Verif Require Import Outcome RealOps MathModel ColorModel InterpModel VspdModel XReal SpecLin FloatInst FloatProofs ErrProofs CurveProofs VspdProofs SpragueProofs PropShape PropSprague AlignProofs PropAlign SpragueErrProofs PropInterp LagrangeProofs WeightProofs PropWeights LinProofs XyzProofs PropStab GridProofs.
Import ListNotations.
Open Scope R_scope.
Local Notation f64 := (binary_float 53 1024).

(* a sum of k terms of size A, each known to c units *)
Definition vk (A c k e : R) (r : f64) : Prop := k <= 2000 -> is_finite r = true /\ Rabs e <= k * A /\ Rabs (B2R r - e) <= k * (c + 2 * k) * (u * A).
Inductive W (A c : R) : list R -> list R -> list f64 -> Prop :=
| W0 : W A c [] [] []
| W1 k e r ks es rs : 1 <= k -> vk A c k e r -> W A c ks es rs -> W A c (k :: ks) (e :: es) (r :: rs).

Section V.
Context (A c : R) (SC : scale A) (C0 : 0 <= c) (CU : c * u <= / 200).
Lemma vk_one e r : vrel A c e r -> vk A c 1 e r.
Proof. intros (F & B & D) _. destruct u53 as [U0 _]. pose proof (scale_pos A SC) as A0. assert (0 < u * A) by (apply Rmult_lt_0_compat; lra). split; [exact F|]. split; [lra|]. eapply Rle_trans; [exact D|]. apply Rmult_le_compat_r; lra. Qed.
Lemma vk_add k j e e' r r' : 1 <= k -> 1 <= j -> vk A c k e r -> vk A c j e' r' -> vk A c (k + j) (e + e') (Bplus mode_NE r r').
Proof.
  intros K1 J1 V V' KJ. destruct (V ltac:(lra)) as (F & B & D). destruct (V' ltac:(lra)) as (F' & B' & D'). clear V V'. destruct u53 as [U0 U1]. pose proof (scale_pos A SC) as A0. assert (UA : 0 < u * A) by (apply Rmult_lt_0_compat; lra). pose proof (scale_eta A SC) as ET.
  assert (DS : Rabs (B2R r + B2R r' - (e + e')) <= (k * (c + 2 * k) + j * (c + 2 * j)) * (u * A)) by (replace (B2R r + B2R r' - (e + e')) with ((B2R r - e) + (B2R r' - e')) by ring; eapply Rle_trans; [apply Rabs_triang|]; lra).
  assert (ES : Rabs (e + e') <= (k + j) * A) by (eapply Rle_trans; [apply Rabs_triang|]; lra).
  assert (KJ2 : (k + j) * 1 <= 2 * (k * j)) by nra.
  assert (SM : (k * (c + 2 * k) + j * (c + 2 * j)) * (u * A) <= / 100 * ((k + j) * A)).
  { replace ((k * (c + 2 * k) + j * (c + 2 * j)) * (u * A)) with ((k * (c * u + 2 * (k * u)) + j * (c * u + 2 * (j * u))) * A) by ring. replace (/ 100 * ((k + j) * A)) with (/ 100 * (k + j) * A) by ring. apply Rmult_le_compat_r; [lra|].
    assert (k * u <= 2000 * / 9000000000000000) by (apply Rmult_le_compat; lra). assert (j * u <= 2000 * / 9000000000000000) by (apply Rmult_le_compat; lra).
    assert (k * (c * u + 2 * (k * u)) <= k * / 100) by (apply Rmult_le_compat_l; lra). assert (j * (c * u + 2 * (j * u)) <= j * / 100) by (apply Rmult_le_compat_l; lra). lra. }
  assert (PP : Rabs (B2R r + B2R r') <= 1.01 * ((k + j) * A)). { replace (B2R r + B2R r') with ((B2R r + B2R r' - (e + e')) + (e + e')) by ring. eapply Rle_trans; [apply Rabs_triang|]. lra. }
  assert (KA : (k + j) * A <= 2000 * A) by (apply Rmult_le_compat_r; lra).
  assert (G : is_finite (Bplus mode_NE r r') = true) by (apply plus_small; try assumption; apply (scale_below A _ SC); lra).
  pose proof (plus_fin 53 1024 _ _ G) as (_ & _ & V). pose proof (rnd_any 53 1024 (B2R r + B2R r')) as RR. assert (UP : u * Rabs (B2R r + B2R r') <= u * (1.01 * ((k + j) * A))) by (apply Rmult_le_compat_l; lra).
  split; [exact G|]. split; [exact ES|]. rewrite V. eapply Rle_trans; [apply (rabs_le3 _ (B2R r + B2R r'))|].
  apply Rle_trans with ((k * (c + 2 * k) + j * (c + 2 * j) + 1.02 * (k + j)) * (u * A)).
  - assert (0 < (k + j) * (u * A)) by (apply Rmult_lt_0_compat; lra). assert (1 * (u * A) <= (k + j) * (u * A)) by (apply Rmult_le_compat_r; lra). lra.
  - apply Rmult_le_compat_r; [lra|]. nra.
Qed.
(* 0.0 + x *)
Lemma zero_plus z (r : f64) : isZ 0 z -> is_finite r = true -> is_finite (Bplus mode_NE z r) = true /\ B2R (Bplus mode_NE z r) = B2R r.
Proof.
  intros (FZ & EZ) F. pose proof (Bplus_correct 53 1024 _ _ mode_NE z r FZ F) as H. rewrite EZ, Rplus_0_l, round_generic in H by (try apply valid_rnd_round_mode; apply generic_format_B2R). rewrite Rlt_bool_true in H by apply abs_B2R_lt_emax. split; apply H.
Qed.
Lemma W_fold ks es rs : W A c ks es rs -> forall k e r, 1 <= k -> vk A c k e r -> vk A c (k + rsum ks) (e + rsum es) (fold_left (Bplus mode_NE) rs r).
Proof.
  induction 1 as [|k' e' r' ks es rs K1 V _ IH]; intros k e r K V0; [cbn [rsum fold_right fold_left]; rewrite !Rplus_0_r; exact V0|]. cbn [fold_left].
  unfold rsum. cbn [fold_right]. fold (rsum ks). fold (rsum es). rewrite <- !Rplus_assoc. apply IH; [lra|]. apply vk_add; assumption.
Qed.
Lemma W_sum ks es rs : W A c ks es rs -> ks <> [] -> vk A c (rsum ks) (rsum es) (fold_left (Bplus mode_NE) rs (b_of_Q 53 1024 0.0)).
Proof.
  intros H N. destruct H as [|k e r ks es rs K1 V H]; [contradiction|]. cbn [fold_left]. unfold rsum. cbn [fold_right]. fold (rsum ks). fold (rsum es). apply W_fold; [exact H|exact K1|].
  intro KC. destruct (V KC) as (F & B & D). destruct (zero_plus (b_of_Q 53 1024 0.0) r) as (F0 & E0); [apply isZ_lit; [clear; q2r; lra|lia]|exact F|]. rewrite E0. split; [exact F0|]. split; assumption.
Qed.
Lemma W_len ks es rs : W A c ks es rs -> length es = length ks /\ length rs = length ks. Proof. induction 1; cbn; intuition lia. Qed.
Lemma W_nth ks es rs d : W A c ks es rs -> forall p, (p < length ks)%nat -> 1 <= nth p ks 0 /\ vk A c (nth p ks 0) (nth p es 0) (nth p rs d).
Proof. induction 1 as [|k e r ks es rs K1 V _ IH]; intros p H; [cbn in H; lia|]. destruct p as [|p]; [cbn; auto|]. cbn [nth]. apply IH. cbn in H. lia. Qed.
Lemma W_upd ks es rs : W A c ks es rs -> forall p j e r, (p < length ks)%nat -> 1 <= j -> vk A c j e r -> W A c (list_upd ks p (fun x => x + j)) (list_upd es p (fun x => x + e)) (list_upd rs p (fun x => Bplus mode_NE x r)).
Proof.
  induction 1 as [|k e r ks es rs K1 V H IH]; intros p j e' r' P J V'; [cbn in P; lia|]. destruct p as [|p]; cbn [list_upd].
  - constructor; [lra|apply vk_add; assumption|exact H].
  - constructor; [exact K1|exact V|]. apply IH; [cbn in P; lia|exact J|exact V'].
Qed.
Lemma W_skip n : forall ks es rs, W A c ks es rs -> W A c (skipn n ks) (skipn n es) (skipn n rs).
Proof. induction n as [|n IH]; intros ks es rs H; [exact H|]. destruct H as [|k e r ks es rs K1 V H]; [constructor|]. cbn [skipn]. apply IH, H. Qed.
Lemma W_first n : forall ks es rs, W A c ks es rs -> W A c (firstn n ks) (firstn n es) (firstn n rs).
Proof. induction n as [|n IH]; intros ks es rs H; [constructor|]. destruct H as [|k e r ks es rs K1 V H]; [constructor|]. cbn [firstn]. constructor; [exact K1|exact V|apply IH, H]. Qed.
Lemma W_ones es rs : Forall2 (vrel A c) es rs -> W A c (map (fun _ => 1) es) es rs.
Proof. induction 1 as [|e r es rs V _ IH]; [constructor|]. cbn [map]. constructor; [lra|apply vk_one, V|exact IH]. Qed.
End V.

(* multiplying every entry by its own factor *)
Lemma vk_mul A c B b k e x r y : scale A -> 0 <= c -> c * u <= / 200 -> 0 < B -> 0 <= b -> b * u <= / 200 -> scale (A * B) -> 1 <= k -> vk A c k e r -> vrel B b x y -> vk (A * B) (1.01 * c + b + 44) k (e * x) (Bmult mode_NE r y).
Proof.
  intros SA C0 CU B0 b0 BU SAB K1 V (F' & B' & D') KK. destruct (V KK) as (F & Be & D). clear V. destruct u53 as [U0 U1]. pose proof (scale_pos A SA) as A0. pose proof (scale_eta _ SAB) as ET.
  assert (AB : 0 < A * B) by (apply Rmult_lt_0_compat; assumption). assert (UAB : 0 < u * (A * B)) by (apply Rmult_lt_0_compat; assumption).
  assert (KP : 0 <= k * (c + 2 * k)) by (apply Rmult_le_pos; lra).
  assert (X : Rabs (B2R r * B2R y - e * x) <= (k * (1.005 * (c + 2 * k) + b)) * (u * (A * B))).
  { replace (B2R r * B2R y - e * x) with ((B2R r - e) * (B2R y - x) + e * (B2R y - x) + x * (B2R r - e)) by ring. eapply Rle_trans; [apply Rabs_triang|]. eapply Rle_trans; [apply Rplus_le_compat_r, Rabs_triang|]. rewrite !Rabs_mult.
    assert (Rabs (B2R r - e) * Rabs (B2R y - x) <= k * (c + 2 * k) * (u * A) * (b * (u * B))) by (apply Rmult_le_compat; try apply Rabs_pos; assumption).
    assert (k * (c + 2 * k) * (u * A) * (b * (u * B)) <= / 200 * (k * (c + 2 * k)) * (u * (A * B))). { replace (k * (c + 2 * k) * (u * A) * (b * (u * B))) with ((b * u) * (k * (c + 2 * k)) * (u * (A * B))) by ring. apply Rmult_le_compat_r; [lra|]. apply Rmult_le_compat_r; lra. }
    assert (Rabs e * Rabs (B2R y - x) <= k * A * (b * (u * B))) by (apply Rmult_le_compat; try apply Rabs_pos; assumption). assert (Rabs x * Rabs (B2R r - e) <= B * (k * (c + 2 * k) * (u * A))) by (apply Rmult_le_compat; try apply Rabs_pos; assumption). lra. }
  assert (EE : Rabs (e * x) <= k * (A * B)) by (rewrite Rabs_mult; apply Rle_trans with (k * A * B); [apply Rmult_le_compat; try apply Rabs_pos; assumption|lra]).
  assert (SM : (k * (1.005 * (c + 2 * k) + b)) * (u * (A * B)) <= / 50 * (k * (A * B))).
  { replace ((k * (1.005 * (c + 2 * k) + b)) * (u * (A * B))) with ((1.005 * (c * u + 2 * (k * u)) + b * u) * (k * (A * B))) by ring. apply Rmult_le_compat_r; [apply Rmult_le_pos; lra|]. assert (k * u <= 2000 * / 9000000000000000) by (apply Rmult_le_compat; lra). lra. }
  assert (P : Rabs (B2R r * B2R y) <= 1.02 * (k * (A * B))). { replace (B2R r * B2R y) with ((B2R r * B2R y - e * x) + e * x) by ring. eapply Rle_trans; [apply Rabs_triang|]. lra. }
  assert (KA : k * (A * B) <= 2000 * (A * B)) by (apply Rmult_le_compat_r; lra).
  assert (G : is_finite (Bmult mode_NE r y) = true) by (apply mult_small; try assumption; apply (scale_below (A * B) _ SAB); lra).
  split; [exact G|]. split; [exact EE|]. pose proof (mult_fin 53 1024 _ _ G) as (_ & _ & V). rewrite V. pose proof (rnd_any 53 1024 (B2R r * B2R y)) as RR.
  assert (UP : u * Rabs (B2R r * B2R y) <= u * (1.02 * (k * (A * B)))) by (apply Rmult_le_compat_l; lra). eapply Rle_trans; [apply (rabs_le3 _ (B2R r * B2R y))|].
  apply Rle_trans with ((k * (1.005 * (c + 2 * k) + b) + 1.03 * k) * (u * (A * B))).
  - assert (1 * (u * (A * B)) <= k * (u * (A * B))) by (apply Rmult_le_compat_r; lra). lra.
  - apply Rmult_le_compat_r; [lra|]. assert (k * k <= k * 2000) by (apply Rmult_le_compat_l; lra). assert (0 <= k * c) by (apply Rmult_le_pos; lra). assert (0 <= k * b) by (apply Rmult_le_pos; lra). lra.
Qed.
Lemma W_mul A c B b : scale A -> 0 <= c -> c * u <= / 200 -> 0 < B -> 0 <= b -> b * u <= / 200 -> scale (A * B) -> forall ks es rs, W A c ks es rs -> forall xs ys, Forall2 (vrel B b) xs ys ->
  W (A * B) (1.01 * c + b + 44) (map fst (combine ks xs)) (map (fun p => fst p * snd p) (combine es xs)) (map (fun '(a, b) => Bmult mode_NE a b) (combine rs ys)).
Proof.
  intros SA C0 CU B0 b0 BU SAB. induction 1 as [|k e r ks es rs K1 V _ IH]; intros xs ys H; [constructor|]. destruct H as [|x y xs ys X H]; [constructor|]. cbn [combine map fst snd]. constructor; [exact K1|apply vk_mul; assumption|apply IH, H].
Qed.
Lemma W_scale A c B b x y : scale A -> 0 <= c -> c * u <= / 200 -> 0 < B -> 0 <= b -> b * u <= / 200 -> scale (A * B) -> vrel B b x y -> forall ks es rs, W A c ks es rs ->
  W (A * B) (1.01 * c + b + 44) ks (map (Rmult x) es) (map (fun a => Bmult mode_NE a y) rs).
Proof.
  intros SA C0 CU B0 b0 BU SAB X. induction 1 as [|k e r ks es rs K1 V _ IH]; [constructor|]. cbn [map]. constructor; [exact K1| |exact IH]. rewrite (Rmult_comm x e). apply vk_mul; assumption.
Qed.
Lemma prefix_sum (xs : list R) : forall ks, Forall (fun k => 1 <= k) ks -> rsum (map fst (combine ks xs)) <= rsum ks.
Proof.
  assert (P : forall l, Forall (fun k => 1 <= k) l -> 0 <= rsum l) by (induction 1 as [|a l A1 _ I]; unfold rsum in *; cbn [fold_right]; lra).
  induction xs as [|x xs IH]; intros [|k ks] H.
  - cbn. lra.
  - cbn [combine map]. apply (P _ H).
  - cbn. lra.
  - inversion H; subst. cbn [combine map]. unfold rsum. cbn [fold_right fst]. fold (rsum ks). fold (rsum (map fst (combine ks xs))). specialize (IH ks H3). lra.
Qed.

(* ---- the loops that fill the table ---- *)
Definition cnt (ks : list R) (x : contribution) : list R := list_upd ks (fst x) (fun n => n + 1).
Lemma cnt_len xs : forall ks, length (fold_left cnt xs ks) = length ks.
Proof. induction xs as [|x xs IH]; intro ks; [reflexivity|]. cbn [fold_left]. rewrite IH. apply list_upd_length. Qed.
Lemma upd_sum j : forall ks p, (p < length ks)%nat -> rsum (list_upd ks p (fun n => n + j)) = rsum ks + j.
Proof. induction ks as [|k ks IH]; intros p H; [cbn in H; lia|]. destruct p as [|p]; cbn [list_upd]; unfold rsum; cbn [fold_right]; fold (rsum ks); [ring|]. fold (rsum (list_upd ks p (fun n => n + j))). rewrite IH by (cbn in H; lia). ring. Qed.
Lemma cnt_sum xs : forall ks, (forall x, In x xs -> (fst x < length ks)%nat) -> rsum (fold_left cnt xs ks) = rsum ks + INR (length xs).
Proof.
  induction xs as [|x xs IH]; intros ks H; [cbn [fold_left length INR]; lra|]. cbn [fold_left length]. rewrite IH by (intros y Y; unfold cnt; rewrite list_upd_length; apply H; right; exact Y). unfold cnt. rewrite upd_sum by (apply H; left; reflexivity). rewrite S_INR. ring.
Qed.
Section Loops.
Context (L : libm f64).
Notation ops := (b_ops 53 1024 L (b_of_Q 53 1024)).
Context (A c : R) (SC : scale A) (C0 : 0 <= c) (CU : c * u <= / 200).
Lemma ofold_W {X} (f : nat -> R) (body : list f64 -> X -> outcome (list f64)) (cs : X -> list contribution) N l :
  (forall x ks es rs, In x l -> length ks = N -> W A c ks es rs -> exists rs', body rs x = Ret rs' /\ W A c (fold_left cnt (cs x) ks) (fold_left (addc f) (cs x) es) rs') ->
  forall ks es rs, length ks = N -> W A c ks es rs -> exists rs', ofold body l rs = Ret rs' /\ W A c (fold_left cnt (flat_map cs l) ks) (fold_left (addc f) (flat_map cs l) es) rs'.
Proof.
  induction l as [|x l IH]; intros H ks es rs N0 V; [exists rs; split; [reflexivity|exact V]|]. destruct (H x ks es rs ltac:(left; reflexivity) N0 V) as (rs1 & E & V1). cbn [ofold flat_map]. rewrite E. cbn [obind]. rewrite !fold_left_app.
  apply IH; [intros y ks' es' rs' Y; apply H; right; exact Y|rewrite cnt_len; exact N0|exact V1].
Qed.
Lemma ofold_W1 {X} (f : nat -> R) (body : list f64 -> X -> outcome (list f64)) (ct : X -> contribution) N l :
  (forall x ks es rs, In x l -> length ks = N -> W A c ks es rs -> exists rs', body rs x = Ret rs' /\ W A c (cnt ks (ct x)) (addc f es (ct x)) rs') ->
  forall ks es rs, length ks = N -> W A c ks es rs -> exists rs', ofold body l rs = Ret rs' /\ W A c (fold_left cnt (map ct l) ks) (fold_left (addc f) (map ct l) es) rs'.
Proof.
  intros H ks es rs N0 V. assert (EF : forall m, map ct m = flat_map (fun x => [ct x]) m) by (induction m as [|x m IHm]; [reflexivity|cbn; f_equal; exact IHm]). rewrite EF.
  apply (ofold_W f body (fun x => [ct x]) N); [|exact N0|exact V]. cbn [fold_left]. exact H.
Qed.
(* w[p] += t *)
Lemma vec_add_W ks es rs p (t : R) (tf : f64) : W A c ks es rs -> (p < length ks)%nat -> vrel A c t tf -> exists rs', @vec_add _ ops rs p tf = Ret rs' /\ W A c (list_upd ks p (fun n => n + 1)) (list_upd es p (fun e => e + t)) rs'.
Proof.
  intros V P T. destruct (W_len _ _ _ _ _ V) as (_ & LR). unfold vec_add. apply Nat.ltb_lt in P as P'. rewrite LR, P'. eexists. split; [reflexivity|]. apply W_upd; try assumption; [lra|]. apply vk_one; assumption.
Qed.
Lemma weights_channel_W I n r3 r4 (f3 f4 : list (list f64)) s y sf yf ks es rs : (2 <= I)%nat -> (2 <= n)%nat -> length f4 = (I - 1)%nat ->
  (forall a b t, (a < I - 1)%nat -> (b < 3)%nat -> (t < I * n + 1)%nat -> exists tf, @wterm _ ops f3 a b sf yf t = Ret tf /\ vrel A c (coef r3 a b * prod s y t) tf) ->
  (forall a b t, (a < I - 1)%nat -> (b < 4)%nat -> (t < I * n + 1)%nat -> exists tf, @wterm _ ops f4 a b sf yf t = Ret tf /\ vrel A c (coef r4 a b * prod s y t) tf) ->
  length ks = (n + 1)%nat -> W A c ks es rs ->
  exists rs', @weights_channel _ ops I (I * n + 1) (n + 1) f3 f4 sf yf rs = Ret rs' /\ W A c (fold_left cnt (c_all I n (I * n + 1) r3 r4) ks) (fold_left (addc (prod s y)) (c_all I n (I * n + 1) r3 r4) es) rs'.
Proof.
  intros HI Hn L4 H3 H4 Lk V. unfold weights_channel. rewrite L4.
  replace ((I * n + 1 - 1) mod I)%nat with 0%nat by (replace (I * n + 1 - 1)%nat with (n * I)%nat by lia; symmetry; apply Nat.mod_mul; lia). rewrite Nat.sub_0_r.
  rewrite usize_sub_ok by lia. cbn [obind]. rewrite Nat.sub_0_r. rewrite usize_sub_ok by lia. cbn [obind]. rewrite usize_sub_ok by nia. cbn [obind]. rewrite usize_sub_ok by lia. cbn [obind].
  replace (n + 1 - 1)%nat with n by lia. replace (I * n + 1 - 1 - (I - 1))%nat with (I * (n - 1) + 1)%nat by nia.
  unfold c_all. rewrite !fold_left_app.
  match goal with |- context [ofold ?b (seq 0 (I - 1)) rs] => destruct (ofold_W (prod s y) b (fun j => map (fun k => (k, (coef r3 j k, (j + 1)%nat))) (seq 0 3)) (n + 1) (seq 0 (I - 1))) with (ks := ks) (es := es) (rs := rs) as (rs1 & E1 & V1); [|exact Lk|exact V|] end.
  { clear ks es rs Lk V. intros j ks es rs Hj Lk V. apply in_seq in Hj. apply (ofold_W1 _ _ _ (n + 1)); [|exact Lk|exact V]. clear ks es rs Lk V. intros k ks es rs Hk Lk V. apply in_seq in Hk.
    destruct (H3 j k (j + 1)%nat) as (tf & Et & Vt); try nia. rewrite Et. cbn [obind]. apply vec_add_W; [exact V|cbn [fst]; lia|exact Vt]. }
  change (flat_map (fun j => map (fun k => (k, (coef r3 j k, (j + 1)%nat))) (seq 0 3)) (seq 0 (I - 1))) with (c_first I r3) in V1. rewrite E1. cbn [obind].
  assert (Lk1 : length (fold_left cnt (c_first I r3) ks) = (n + 1)%nat) by (rewrite cnt_len; exact Lk). revert Lk1 V1. generalize (fold_left cnt (c_first I r3) ks) (fold_left (addc (prod s y)) (c_first I r3) es). clear ks es Lk V E1. intros ks es Lk V. 
  match goal with |- context [ofold ?b (seq 0 (I - 1)) rs1] => destruct (ofold_W (prod s y) b (fun j => map (fun k => (k, (coef r3 (I - 1 - j - 1) (n - k), (j + (I * (n - 1) + 1))%nat))) (rev (seq (n - 2) 3))) (n + 1) (seq 0 (I - 1))) with (ks := ks) (es := es) (rs := rs1) as (rs2 & E1 & V1); [|exact Lk|exact V|] end.
  { clear ks es rs1 Lk V. intros j ks es rs1 Hj Lk V. apply in_seq in Hj. rewrite usize_sub_ok by lia. cbn [obind]. apply (ofold_W1 _ _ _ (n + 1)); [|exact Lk|exact V]. clear ks es rs1 Lk V. intros k ks es rs1 Hk Lk V. apply in_rev, in_seq in Hk.
    destruct (H3 (I - 1 - j - 1)%nat (n - k)%nat (j + (I * (n - 1) + 1))%nat) as (tf & Et & Vt); try nia. rewrite Et. cbn [obind]. apply vec_add_W; [exact V|cbn [fst]; lia|exact Vt]. }
  change (flat_map (fun j => map (fun k => (k, (coef r3 (I - 1 - j - 1) (n - k), (j + (I * (n - 1) + 1))%nat))) (rev (seq (n - 2) 3))) (seq 0 (I - 1))) with (c_last I n r3) in V1. rewrite E1. cbn [obind].
  assert (Lk1 : length (fold_left cnt (c_last I n r3) ks) = (n + 1)%nat) by (rewrite cnt_len; exact Lk). revert Lk1 V1. generalize (fold_left cnt (c_last I n r3) ks) (fold_left (addc (prod s y)) (c_last I n r3) es). clear ks es Lk V E1. intros ks es Lk V. 
  rewrite usize_sub_ok by lia. cbn [obind]. replace (n + 1 - 3)%nat with (n - 2)%nat by lia.
  match goal with |- context [ofold ?b (seq 0 (n - 2)) rs2] => destruct (ofold_W (prod s y) b (fun j => flat_map (fun k => map (fun q => ((j + q)%nat, (coef r4 k q, (I * (j + 1) + 1 + k)%nat))) (seq 0 4)) (seq 0 (I - 1))) (n + 1) (seq 0 (n - 2))) with (ks := ks) (es := es) (rs := rs2) as (rs3 & E1 & V1); [|exact Lk|exact V|] end.
  { clear ks es rs2 Lk V. intros j ks es rs2 Hj Lk V. apply in_seq in Hj. apply (ofold_W _ _ _ (n + 1)); [|exact Lk|exact V]. clear ks es rs2 Lk V. intros k ks es rs2 Hk Lk V. apply in_seq in Hk.
    apply (ofold_W1 _ _ _ (n + 1)); [|exact Lk|exact V]. clear ks es rs2 Lk V. intros q ks es rs2 Hq Lk V. apply in_seq in Hq. replace (I - 1 + 1)%nat with I by lia.
    destruct (H4 k q (I * (j + 1) + 1 + k)%nat) as (tf & Et & Vt); try nia. rewrite Et. cbn [obind]. apply vec_add_W; [exact V|cbn [fst]; lia|exact Vt]. }
  change (flat_map (fun j => flat_map (fun k => map (fun q => ((j + q)%nat, (coef r4 k q, (I * (j + 1) + 1 + k)%nat))) (seq 0 4)) (seq 0 (I - 1))) (seq 0 (n - 2))) with (c_mid I n r4) in V1. rewrite E1. cbn [obind].
  unfold c_tail. rewrite Nat.sub_diag. cbn [seq ofold map fold_left]. exists rs3. split; [reflexivity|exact V1].
Qed.

(* trimming the table to the spectrum *)
Lemma gather_W (q : nat -> nat) p (body : list f64 -> nat -> outcome (list f64)) N l : (p < N)%nat -> (forall i, In i l -> (q i < N)%nat) ->
  (forall i rs, In i l -> length rs = N -> exists v, nth_error rs (q i) = Some v /\ body rs i = @vec_add _ ops rs p v) ->
  forall ks es rs, length ks = N -> W A c ks es rs ->
  exists rs', ofold body l rs = Ret rs' /\ W A c (fold_left (fun w i => list_upd w p (fun x => x + nth (q i) w 0)) l ks) (fold_left (fun w i => list_upd w p (fun x => x + nth (q i) w 0)) l es) rs'.
Proof.
  intros P. induction l as [|i l IH]; intros Q H ks es rs N0 V; [exists rs; split; [reflexivity|exact V]|]. destruct (W_len _ _ _ _ _ V) as (LE & LR).
  destruct (H i rs ltac:(left; reflexivity) ltac:(lia)) as (v & Ev & Eb). cbn [ofold fold_left]. rewrite Eb. unfold vec_add. assert (P' : Nat.ltb p (length rs) = true) by (apply Nat.ltb_lt; lia). rewrite P'. cbn [obind].
  pose proof (Q i ltac:(left; reflexivity)) as Qi. destruct (W_nth _ _ _ _ _ v V (q i) ltac:(lia)) as (K1 & Vq). rewrite (nth_error_nth _ _ _ Ev) in Vq.
  apply IH; [intros j J; apply Q; right; exact J|intros j rs' J; apply H; right; exact J|rewrite list_upd_length; exact N0|]. apply W_upd; try assumption. lia.
Qed.
End Loops.
Section Exact.
Context {K : XConst}.
Definition gath (p : nat) (q : nat -> nat) (w : list R) (i : nat) : list R := list_upd w p (fun x => x + nth (q i) w 0).
Lemma gath_len p q l : forall w, length (fold_left (gath p q) l w) = length w.
Proof. induction l as [|i l IH]; intro w; [reflexivity|]. cbn [fold_left]. rewrite IH. apply list_upd_length. Qed.
Lemma gather_x (q : nat -> nat) p (body : list xr -> nat -> outcome (list xr)) N l : (p < N)%nat ->
  (forall i w, In i l -> length w = N -> body (Fins w) i = vec_add (Fins w) p (Fin (nth (q i) w 0))) ->
  forall w, length w = N -> ofold body l (Fins w) = Ret (Fins (fold_left (gath p q) l w)).
Proof.
  intro P. induction l as [|i l IH]; intros H w N0; [reflexivity|]. cbn [ofold fold_left]. rewrite H by (auto; left; reflexivity). rewrite vec_add_fin by lia. cbn [obind]. apply IH; [intros; apply H; [right; assumption|assumption]|unfold gath; rewrite list_upd_length; exact N0].
Qed.
Definition trims (a b : nat) (w : list R) : list R :=
  let n := length w in firstn (n - b - a) (skipn a (fold_left (gath (n - b - 1) (fun i => (n - i - 1)%nat)) (seq 0 b) (fold_left (gath a (fun i => i)) (seq 0 a) w))).
Lemma trims_trimw a b w : (a + b < length w)%nat -> trims a b w = trimw a b w.
Proof.
  intro H. pose proof (adjust_channel_fin a b w H) as E. unfold adjust_channel in E. rewrite (gather_x (fun i => i) a _ (length w)) in E; [|lia| |reflexivity].
  2: { intros i v I N0. apply in_seq in I. rewrite oindex_fins by lia. reflexivity. }
  cbn [obind] in E. assert (LF : forall v, length (Fins v) = length v) by (intro; apply map_length). rewrite LF, gath_len in E. set (n := length w) in *. rewrite (gather_x (fun i => (n - i - 1)%nat) (n - b - 1) _ n) in E; [|lia| |rewrite gath_len; reflexivity].
  2: { intros i v I N0. apply in_seq in I. repeat (rewrite usize_sub_ok by lia; cbn [obind]). rewrite oindex_fins by lia. reflexivity. }
  cbn [obind] in E. rewrite usize_sub_ok in E by lia. cbn [obind] in E. destruct (Nat.leb_spec a (n - b)); [|lia]. apply (f_equal (fun o => match o with Ret v => v | _ => [] end)) in E. cbn beta iota in E. unfold Fins in E. rewrite skipn_map, firstn_map in E.
  unfold trims. fold n. revert E. generalize (trimw a b w) (firstn (n - b - a) (skipn a (fold_left (gath (n - b - 1) (fun i => (n - i - 1)%nat)) (seq 0 b) (fold_left (gath a (fun i => i)) (seq 0 a) w)))). clear.
  intros l m. revert l. induction m as [|x m IH]; intros [|y l] E; try discriminate; [reflexivity|]. cbn [map] in E. injection E as E1 E2. f_equal; [exact E1|apply IH, E2].
Qed.
End Exact.
Section Adjust.
Context {K : XConst} (L : libm f64).
Notation ops := (b_ops 53 1024 L (b_of_Q 53 1024)).
Context (A c : R) (SC : scale A) (C0 : 0 <= c) (CU : c * u <= / 200).
Lemma adjust_W a b ks es rs : (a + b < length ks)%nat -> W A c ks es rs -> exists rs', @adjust_channel _ ops a b rs = Ret rs' /\ W A c (trimw a b ks) (trimw a b es) rs'.
Proof.
  intros H V. destruct (W_len _ _ _ _ _ V) as (LE & LR). set (n := length ks) in *. unfold adjust_channel.
  match goal with |- context [ofold ?b (seq 0 a) rs] => destruct (gather_W L A c SC CU (fun i => i) a b n (seq 0 a)) with (ks := ks) (es := es) (rs := rs) as (rs1 & E1 & V1) end; [lia|intros i I; apply in_seq in I; lia| |reflexivity|exact V|].
  { intros i v I N0. apply in_seq in I. destruct (nth_error v i) as [x|] eqn:EX; [|apply nth_error_None in EX; lia]. exists x. split; [reflexivity|]. unfold oindex. rewrite EX. reflexivity. }
  rewrite E1. cbn [obind]. change (fun w i => list_upd w a (fun x => x + nth i w 0)) with (gath a (fun i => i)) in V1.
  destruct (W_len _ _ _ _ _ V1) as (_ & LR1). rewrite gath_len in LR1. fold n in LR1. rewrite LR1.
  match goal with |- context [ofold ?bd (seq 0 b) rs1] => destruct (gather_W L A c SC CU (fun i => (n - i - 1)%nat) (n - b - 1) bd n (seq 0 b)) with (ks := fold_left (gath a (fun i => i)) (seq 0 a) ks) (es := fold_left (gath a (fun i => i)) (seq 0 a) es) (rs := rs1) as (rs2 & E2 & V2) end; [lia|intros i I; apply in_seq in I; lia| |apply gath_len|exact V1|].
  { intros i v I N0. apply in_seq in I. repeat (rewrite usize_sub_ok by lia; cbn [obind]). destruct (nth_error v (n - i - 1)) as [x|] eqn:EX; [|apply nth_error_None in EX; lia]. exists x. split; [reflexivity|]. unfold oindex. rewrite EX. reflexivity. }
  rewrite E2. cbn [obind]. change (fun w i => list_upd w (n - b - 1) (fun x => x + nth (n - i - 1) w 0)) with (gath (n - b - 1) (fun i => (n - i - 1)%nat)) in V2.
  rewrite usize_sub_ok by lia. cbn [obind]. destruct (Nat.leb_spec a (n - b)); [|lia]. eexists. split; [reflexivity|].
  rewrite <- !trims_trimw by (rewrite ?LE; fold n; lia). unfold trims. rewrite LE. fold n. apply W_first, W_skip, V2.
Qed.
End Adjust.
