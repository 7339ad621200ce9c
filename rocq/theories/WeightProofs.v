(* The E2022 weighting loops (vspd.rs 559-638) as a list of contributions: entry (p, (c, t)) adds
   c * s[t] * y[t] to weight p. *)
From Coq Require Import Reals ZArith QArith Qreals Lra Lia List Bool.
From Flocq Require Import Core.
From Verif Require Import Outcome RealOps MathModel ColorModel InterpModel VspdModel XReal SpecLin VspdProofs PropShape SpragueProofs LagrangeProofs.
Import ListNotations.
Open Scope R_scope.

Definition contribution : Type := nat * (R * nat).
Definition addc (f : nat -> R) (w : list R) (x : contribution) : list R :=
  list_upd w (fst x) (fun e => e + fst (snd x) * f (snd (snd x))).
Definition prod (s y : list R) (t : nat) : R := nth t s 0 * nth t y 0.

Lemma list_upd_length {A} (l : list A) : forall k f, length (list_upd l k f) = length l.
Proof. induction l as [|a l IH]; intros [|k] f; cbn; auto. Qed.
Lemma list_upd_map {A B} (g : A -> B) (l : list A) : forall k f f', (forall x, f' (g x) = g (f x)) -> list_upd (map g l) k f' = map g (list_upd l k f).
Proof. induction l as [|a l IH]; intros [|k] f f' H; cbn; auto; rewrite ?H; auto. erewrite IH by exact H. reflexivity. Qed.
Lemma list_upd_ext {A} (l : list A) : forall k f g, (forall x, f x = g x) -> list_upd l k f = list_upd l k g.
Proof. induction l as [|a l IH]; intros [|k] f g H; cbn; rewrite ?H; auto. erewrite IH by exact H. reflexivity. Qed.
Lemma list_upd_id {A} (l : list A) : forall k f, (forall x, f x = x) -> list_upd l k f = l.
Proof. induction l as [|a l IH]; intros [|k] f H; cbn; rewrite ?H, ?IH; auto. Qed.
Lemma addc_length f w x : length (addc f w x) = length w. Proof. apply list_upd_length. Qed.
Lemma fold_addc_length f C : forall w, length (fold_left (addc f) C w) = length w.
Proof. induction C as [|x C IH]; intro w; cbn; [reflexivity|]. rewrite IH. apply addc_length. Qed.
Lemma fold_addc_scale a f C : forall w,
  fold_left (addc (fun t => a * f t)) C (map (Rmult a) w) = map (Rmult a) (fold_left (addc f) C w).
Proof.
  induction C as [|x C IH]; intro w; cbn [fold_left]; [reflexivity|]. rewrite <- IH. f_equal. unfold addc.
  apply list_upd_map. intro e. ring.
Qed.
Lemma fold_addc_ext f g C : (forall x, In x C -> f (snd (snd x)) = g (snd (snd x))) -> forall w, fold_left (addc f) C w = fold_left (addc g) C w.
Proof.
  induction C as [|x C IH]; intros H w; cbn [fold_left]; [reflexivity|].
  replace (addc g w x) with (addc f w x) by (unfold addc; apply list_upd_ext; intro; rewrite H by (now left); reflexivity).
  apply IH. intros; apply H; now right.
Qed.
Lemma fold_addc_zero f C : (forall x, In x C -> f (snd (snd x)) = 0) -> forall w, fold_left (addc f) C w = w.
Proof.
  induction C as [|x C IH]; intros H w; cbn [fold_left]; [reflexivity|].
  rewrite IH by (intros; apply H; now right). unfold addc. apply list_upd_id. intro e. rewrite H by (now left). ring.
Qed.

(* sums *)
Lemma rsum_app l m : rsum (l ++ m) = rsum l + rsum m.
Proof. unfold rsum. induction l as [|a l IH]; cbn; [ring|]. fold (rsum l) in *. rewrite IH. unfold rsum. ring. Qed.
Lemma rsum_flat {A} (F : A -> list R) l : rsum (flat_map F l) = rsum (map (fun a => rsum (F a)) l).
Proof. induction l as [|a l IH]; [reflexivity|]. cbn [flat_map map]. rewrite rsum_app, IH. reflexivity. Qed.
Lemma rsum_ext {A} (F G : A -> R) l : (forall x, In x l -> F x = G x) -> rsum (map F l) = rsum (map G l).
Proof. intro H. f_equal. apply map_ext_in, H. Qed.
Lemma rsum_scale {A} a (F : A -> R) l : rsum (map (fun x => a * F x) l) = a * rsum (map F l).
Proof. unfold rsum. induction l as [|x l IH]; cbn; [ring|]. rewrite IH. ring. Qed.
Lemma rsum_plus {A} (F G : A -> R) l : rsum (map (fun x => F x + G x) l) = rsum (map F l) + rsum (map G l).
Proof. unfold rsum. induction l as [|x l IH]; cbn; [ring|]. rewrite IH. ring. Qed.
Lemma map_flat_map {A B C} (g : B -> C) (F : A -> list B) l : map g (flat_map F l) = flat_map (fun a => map g (F a)) l.
Proof. induction l as [|a l IH]; cbn; [reflexivity|]. rewrite map_app, IH. reflexivity. Qed.
Definition sumf (F : nat -> R) (a n : nat) : R := rsum (map F (seq a n)).
Lemma sumf_S F a n : sumf F a (Datatypes.S n) = F a + sumf F (Datatypes.S a) n. Proof. reflexivity. Qed.
Lemma sumf_app F a n m : sumf F a (n + m) = sumf F a n + sumf F (a + n) m.
Proof. unfold sumf. rewrite seq_app, map_app, rsum_app. reflexivity. Qed.
Lemma sumf_shift F a b n : sumf F (a + b) n = sumf (fun j => F (a + j)%nat) b n.
Proof. unfold sumf. revert b. induction n as [|n IH]; intro b; [reflexivity|]. cbn [seq map]. unfold rsum in *. cbn. rewrite plus_n_Sm, IH. reflexivity. Qed.
Lemma sumf_ext F G a n : (forall j, (a <= j < a + n)%nat -> F j = G j) -> sumf F a n = sumf G a n.
Proof. intro H. unfold sumf. apply rsum_ext. intros j Hj. apply in_seq in Hj. apply H, Hj. Qed.

Lemma dotp_upd w : forall p g v, (p < length w)%nat -> length g = length w ->
  dotp (list_upd w p (fun e => e + v)) g = dotp w g + v * nth p g 0.
Proof.
  induction w as [|a w IH]; intros p g v Hp L; cbn in Hp; [lia|]. destruct g as [|b g]; [discriminate|].
  destruct p as [|p]; cbn; [ring|]. rewrite IH by (cbn in L; lia). ring.
Qed.
Lemma fold_addc_dotp f C g : forall w, length g = length w -> (forall x, In x C -> (fst x < length w)%nat) ->
  dotp (fold_left (addc f) C w) g = dotp w g + rsum (map (fun x : contribution => fst (snd x) * f (snd (snd x)) * nth (fst x) g 0) C).
Proof.
  induction C as [|x C IH]; intros w L H; cbn [fold_left map].
  - unfold rsum. cbn. ring.
  - rewrite IH; [|rewrite addc_length; exact L|rewrite addc_length; intros; apply H; now right].
    unfold addc at 1. rewrite dotp_upd; [|apply H; now left|exact L]. unfold rsum. cbn [fold_right]. ring.
Qed.

(* the contributions *)
Section Contrib.
Context (I n m : nat) (r3 r4 : list (list R)).
Definition coef (r : list (list R)) (j k : nat) : R := nth k (nth j r []) 0.
Definition c_first : list contribution :=
  flat_map (fun j => map (fun k => (k, (coef r3 j k, (j + 1)%nat))) (seq 0 3)) (seq 0 (I - 1)).
Definition c_last : list contribution :=
  flat_map (fun j => map (fun k => (k, (coef r3 (I - 1 - j - 1) (n - k), (j + (I * (n - 1) + 1))%nat))) (rev (seq (n - 2) 3))) (seq 0 (I - 1)).
Definition c_mid : list contribution :=
  flat_map (fun j => flat_map (fun k => map (fun q => ((j + q)%nat, (coef r4 k q, (I * (j + 1) + 1 + k)%nat))) (seq 0 4)) (seq 0 (I - 1))) (seq 0 (n - 2)).
Definition c_tail : list contribution := map (fun j => (n, (1, j))) (seq (I * n + 1) (m - (I * n + 1))).
Definition c_all : list contribution := c_first ++ c_last ++ c_mid ++ c_tail.
Definition base (f : nat -> R) : list R := map (fun j => f (I * j)%nat) (seq 0 (n + 1)).
Definition weights (f : nat -> R) : list R := fold_left (addc f) c_all (base f).

Lemma weights_length f : length (weights f) = (n + 1)%nat.
Proof. unfold weights. rewrite fold_addc_length. unfold base. rewrite map_length, seq_length. reflexivity. Qed.
Lemma weights_scale a f : weights (fun t => a * f t) = map (Rmult a) (weights f).
Proof. unfold weights. rewrite <- fold_addc_scale. f_equal. unfold base. rewrite map_map. reflexivity. Qed.

Lemma in_all x : (2 <= n)%nat -> (I * n + 1 <= m)%nat -> In x c_all ->
  (fst x <= n)%nat /\ (snd (snd x) < m)%nat /\ (m <= I * n + I -> (1 <= I)%nat -> snd (snd x) mod I <> 0)%nat.
Proof.
  intros Hn Hm Hx. unfold c_all in Hx. rewrite !in_app_iff in Hx. destruct Hx as [Hx|[Hx|[Hx|Hx]]].
  - unfold c_first in Hx. apply in_flat_map in Hx. destruct Hx as (j & Hj & Hx). apply in_map_iff in Hx. destruct Hx as (k & <- & Hk).
    apply in_seq in Hj, Hk. cbn. repeat apply conj; [lia|nia|]. intros _ _. rewrite Nat.mod_small; lia.
  - unfold c_last in Hx. apply in_flat_map in Hx. destruct Hx as (j & Hj & Hx). apply in_map_iff in Hx. destruct Hx as (k & <- & Hk).
    apply in_rev in Hk. apply in_seq in Hj, Hk. cbn. repeat apply conj; [lia|nia|]. intros _ _.
    replace (j + (I * (n - 1) + 1))%nat with (j + 1 + (n - 1) * I)%nat by lia. rewrite Nat.mod_add, Nat.mod_small; lia.
  - unfold c_mid in Hx. apply in_flat_map in Hx. destruct Hx as (j & Hj & Hx). apply in_flat_map in Hx. destruct Hx as (k & Hk & Hx).
    apply in_map_iff in Hx. destruct Hx as (q & <- & Hq). apply in_seq in Hj, Hk, Hq. cbn [fst snd]. repeat apply conj; [lia|nia|]. intros _ _.
    replace (I * (j + 1) + 1 + k)%nat with (k + 1 + (j + 1) * I)%nat by lia. rewrite Nat.mod_add, Nat.mod_small; lia.
  - unfold c_tail in Hx. apply in_map_iff in Hx. destruct Hx as (j & <- & Hj). apply in_seq in Hj. cbn [fst snd]. repeat apply conj; [lia|lia|].
    intros H1 H2. replace j with ((j - I * n) + n * I)%nat by lia. rewrite Nat.mod_add, Nat.mod_small; lia.
Qed.

(* total of a functional over the weights: G is its value at the coarse points, D at the fine ones *)
Lemma weights_total f (G D : nat -> R) : (1 <= I)%nat -> (2 <= n)%nat -> (I * n + 1 <= m)%nat ->
  (forall j, (j < I - 1)%nat -> sumf (fun k => coef r3 j k * G k) 0 3 = D (j + 1)%nat) ->
  (forall j, (j < I - 1)%nat -> sumf (fun k => coef r3 j k * G (n - k)%nat) 0 3 = D (I * n - (j + 1))%nat) ->
  (forall j k, (j < n - 2)%nat -> (k < I - 1)%nat -> sumf (fun q => coef r4 k q * G (j + q)%nat) 0 4 = D (I * (j + 1) + 1 + k)%nat) ->
  (forall j, (j <= n)%nat -> G j = D (I * j)%nat) -> (forall t, (I * n < t)%nat -> (t < m)%nat -> D t = G n) ->
  dotp (weights f) (map G (seq 0 (n + 1))) = sumf (fun t => f t * D t) 0 m.
Proof.
  intros HI Hn Hm Hf Hl Hmid Hb Ht. set (g := fun t => f t * D t).
  assert (GN : forall p, (p <= n)%nat -> nth p (map G (seq 0 (n + 1))) 0 = G p).
  { intros p Hp. rewrite nth_indep with (d' := G 0%nat) by (rewrite map_length, seq_length; lia). rewrite map_nth, seq_nth by lia. reflexivity. }
  unfold weights. rewrite fold_addc_dotp.
  2: { unfold base. rewrite !map_length. reflexivity. }
  2: { intros x Hx. unfold base. rewrite map_length, seq_length. apply in_all in Hx; [|assumption..]. lia. }
  rewrite (rsum_ext _ (fun x : contribution => fst (snd x) * f (snd (snd x)) * G (fst x))) by (intros x Hx; apply in_all in Hx; [|assumption..]; rewrite GN by tauto; reflexivity).
  set (blk := fun j => sumf (fun k => g (I * j + 1 + k)%nat) 0 (I - 1)).
  assert (EB : dotp (base f) (map G (seq 0 (n + 1))) = sumf (fun j => g (I * j)%nat) 0 (n + 1)).
  { unfold base, sumf. assert (H : forall j, In j (seq 0 (n + 1)) -> G j = D (I * j)%nat) by (intros j Hj; apply in_seq in Hj; apply Hb; lia).
    revert H. generalize (seq 0 (n + 1)). induction l as [|j l IH]; intro H; [reflexivity|]. cbn [map dotp]. rewrite IH by (intros; apply H; now right).
    rewrite (H j) by (now left). unfold rsum. cbn. unfold g. ring. }
  assert (E1 : rsum (map (fun x : contribution => fst (snd x) * f (snd (snd x)) * G (fst x)) c_first) = blk 0%nat).
  { unfold c_first. rewrite map_flat_map, rsum_flat. unfold blk. apply sumf_ext. intros j Hj. rewrite map_map. cbn [fst snd].
    replace (I * 0 + 1 + j)%nat with (j + 1)%nat by lia. unfold g. rewrite <- Hf by lia. unfold sumf, rsum. cbn [seq map fold_right]. ring. }
  assert (E2 : rsum (map (fun x : contribution => fst (snd x) * f (snd (snd x)) * G (fst x)) c_last) = blk (n - 1)%nat).
  { unfold c_last. rewrite map_flat_map, rsum_flat. unfold blk. apply sumf_ext. intros j Hj. rewrite map_map. cbn [fst snd].
    replace (I * (n - 1) + 1 + j)%nat with (j + (I * (n - 1) + 1))%nat by lia. unfold g.
    replace (D (j + (I * (n - 1) + 1))%nat) with (D (I * n - (I - 1 - j - 1 + 1))%nat) by (f_equal; nia).
    rewrite <- Hl by lia. unfold sumf, rsum. cbn [seq map fold_right rev app].
    replace (n - Datatypes.S (Datatypes.S (n - 2)))%nat with 0%nat by lia. replace (n - Datatypes.S (n - 2))%nat with 1%nat by lia. replace (n - (n - 2))%nat with 2%nat by lia.
    replace (Datatypes.S (Datatypes.S (n - 2)))%nat with (n - 0)%nat by lia. replace (Datatypes.S (n - 2))%nat with (n - 1)%nat by lia. ring. }
  assert (E3 : rsum (map (fun x : contribution => fst (snd x) * f (snd (snd x)) * G (fst x)) c_mid) = sumf blk 1 (n - 2)).
  { unfold c_mid. rewrite map_flat_map, rsum_flat. rewrite (sumf_shift blk 1 0). apply sumf_ext. intros j Hj. rewrite map_flat_map, rsum_flat.
    unfold blk. apply sumf_ext. intros k Hk. rewrite map_map. cbn [fst snd].
    replace (1 + j)%nat with (j + 1)%nat by lia. unfold g. rewrite <- Hmid by lia. unfold sumf, rsum. cbn [seq map fold_right]. ring. }
  assert (E4 : rsum (map (fun x : contribution => fst (snd x) * f (snd (snd x)) * G (fst x)) c_tail) = sumf g (I * n + 1) (m - (I * n + 1))).
  { unfold c_tail. rewrite map_map. cbn [fst snd]. apply sumf_ext. intros j Hj. unfold g. rewrite Ht by lia. ring. }
  unfold c_all. rewrite !map_app, !rsum_app, E1, E2, E3, E4, EB.
  assert (TOT : forall q, sumf g 0 (I * q) = sumf (fun j => g (I * j)%nat) 0 q + sumf blk 0 q).
  { induction q as [|q IH]; [rewrite Nat.mul_0_r; unfold sumf, rsum; cbn; ring|].
    replace (I * Datatypes.S q)%nat with (I * q + I)%nat by lia. rewrite sumf_app, IH. cbn [Nat.add].
    replace (Datatypes.S q) with (q + 1)%nat by lia. rewrite !sumf_app. cbn [Nat.add].
    assert (B : sumf g (I * q) I = g (I * q)%nat + blk q).
    { transitivity (sumf g (I * q) (1 + (I - 1))); [f_equal; lia|]. rewrite sumf_app. f_equal; [unfold sumf, rsum; cbn; ring|].
      unfold blk. transitivity (sumf g (I * q + 1 + 0) (I - 1)); [f_equal; lia|apply sumf_shift]. }
    rewrite B. replace (sumf blk q 1) with (blk q) by (unfold sumf, rsum; cbn; ring).
    replace (sumf (fun j => g (I * j)%nat) q 1) with (g (I * q)%nat) by (unfold sumf, rsum; cbn; ring). ring. }
  replace (sumf g 0 m) with (sumf g 0 (I * n) + g (I * n)%nat + sumf g (I * n + 1) (m - (I * n + 1))).
  2: { replace m with (I * n + (1 + (m - (I * n + 1))))%nat at 2 by lia. rewrite sumf_app, sumf_app. cbn [Nat.add].
       replace (sumf g (I * n) 1) with (g (I * n)%nat) by (unfold sumf, rsum; cbn; ring). ring. }
  rewrite TOT. rewrite (sumf_app (fun j => g (I * j)%nat) 0 n 1). cbn [Nat.add].
  replace (sumf (fun j => g (I * j)%nat) n 1) with (g (I * n)%nat) by (unfold sumf, rsum; cbn; ring).
  replace (sumf blk 0 n) with (blk 0%nat + (sumf blk 1 (n - 2) + blk (n - 1)%nat)); [ring|].
  replace n with (1 + ((n - 2) + 1))%nat at 3 by lia. rewrite !sumf_app. cbn [Nat.add].
  replace (Datatypes.S (n - 2)) with (n - 1)%nat by lia.
  replace (sumf blk 0 1) with (blk 0%nat) by (unfold sumf, rsum; cbn; ring).
  replace (sumf blk (n - 1) 1) with (blk (n - 1)%nat) by (unfold sumf, rsum; cbn; ring). ring.
Qed.
End Contrib.

Section Model.
Context {K : XConst}.

Lemma vec_add_fin w k v : (k < length w)%nat -> vec_add (Fins w) k (Fin v) = Ret (Fins (list_upd w k (fun e => e + v))).
Proof.
  intro H. unfold vec_add. unfold Fins at 1. rewrite map_length. apply Nat.ltb_lt in H. rewrite H. f_equal. unfold Fins.
  apply list_upd_map. intro e. apply x_add.
Qed.
Lemma oindex_fins l k : (k < length l)%nat -> oindex (Fins l) k = Ret (Fin (nth k l 0)).
Proof. intro H. apply oindex_some, nthF, H. Qed.
Lemma wterm_fin r a b s y t d : (a < length r)%nat -> length (nth a r []) = d -> (b < d)%nat -> (t < length s)%nat -> (t < length y)%nat ->
  wterm (map Fins r) a b (Fins s) (Fins y) t = Ret (Fin (coef r a b * prod s y t)).
Proof.
  intros Ha Hd Hb Hs Hy. unfold wterm. rewrite (oindex_some _ _ (Fins (nth a r []))).
  2: { rewrite nth_error_map. rewrite (nth_error_nth' r [] Ha). reflexivity. }
  cbn [obind]. rewrite oindex_fins by lia. cbn [obind]. rewrite !oindex_fins by assumption. cbn [obind]. rewrite !x_mul. f_equal. f_equal. unfold coef, prod. ring.
Qed.
(* a loop whose body applies the contributions [cs x] *)
Lemma ofold_contrib {A} (f : nat -> R) (body : list xr -> A -> outcome (list xr)) (cs : A -> list contribution) L l :
  (forall x w, In x l -> length w = L -> body (Fins w) x = Ret (Fins (fold_left (addc f) (cs x) w))) ->
  forall w, length w = L -> ofold body l (Fins w) = Ret (Fins (fold_left (addc f) (flat_map cs l) w)).
Proof.
  induction l as [|x l IH]; intros H w Hw; [reflexivity|]. cbn [ofold flat_map]. rewrite H by (auto; now left). cbn [obind].
  rewrite fold_left_app. apply IH; [intros; apply H; [now right|assumption]|]. rewrite fold_addc_length. exact Hw.
Qed.
Lemma ofold_contrib1 {A} (f : nat -> R) (body : list xr -> A -> outcome (list xr)) (c : A -> contribution) L l :
  (forall x w, In x l -> length w = L -> body (Fins w) x = Ret (Fins (addc f w (c x)))) ->
  forall w, length w = L -> ofold body l (Fins w) = Ret (Fins (fold_left (addc f) (map c l) w)).
Proof.
  induction l as [|x l IH]; intros H w Hw; [reflexivity|]. cbn [ofold map fold_left]. rewrite H by (auto; now left). cbn [obind].
  apply IH; [intros; apply H; [now right|assumption]|]. rewrite addc_length. exact Hw.
Qed.

Lemma weights_channel_fin I m n r3 r4 s y w : (2 <= I)%nat -> (2 <= n)%nat -> n = ((m - 1) / I)%nat -> length s = m -> length y = m ->
  length r3 = (I - 1)%nat -> length r4 = (I - 1)%nat -> (forall j, (j < I - 1)%nat -> length (nth j r3 []) = 3%nat) ->
  (forall j, (j < I - 1)%nat -> length (nth j r4 []) = 4%nat) -> length w = (n + 1)%nat ->
  weights_channel I m (n + 1) (map Fins r3) (map Fins r4) (Fins s) (Fins y) (Fins w)
  = Ret (Fins (fold_left (addc (prod s y)) (c_all I n m r3 r4) w)).
Proof.
  intros HI Hn En Ls Ly L3 L4 R3 R4 Lw. unfold weights_channel. rewrite map_length, L4.
  assert (DM : (m - 1 = I * n + (m - 1) mod I)%nat) by (rewrite En; apply Nat.div_mod; lia).
  assert (ML : ((m - 1) mod I < I)%nat) by (apply Nat.mod_upper_bound; lia).
  assert (Hm : (1 <= m)%nat) by (destruct m; [rewrite Nat.div_0_l in En; lia|lia]).
  rewrite usize_sub_ok by lia. cbn [obind]. replace (m - (m - 1) mod I)%nat with (I * n + 1)%nat by lia.
  rewrite usize_sub_ok by lia. cbn [obind]. rewrite usize_sub_ok by nia. cbn [obind]. rewrite usize_sub_ok by lia. cbn [obind].
  replace (n + 1 - 1)%nat with n by lia. replace (I * n + 1 - 1 - (I - 1))%nat with (I * (n - 1) + 1)%nat by nia.
  unfold c_all. rewrite !fold_left_app.
  match goal with |- obind (ofold ?b ?l (Fins w)) _ = _ => replace (ofold b l (Fins w)) with (Ret (Fins (fold_left (addc (prod s y)) (c_first I r3) w))) end.
  2: { symmetry. apply (ofold_contrib (prod s y) _ _ (n + 1)); [|exact Lw]. clear w Lw. intros j w Hj Lw. apply in_seq in Hj. apply (ofold_contrib1 _ _ _ (n + 1)); [|exact Lw]. clear w Lw. intros k w Hk Lw. apply in_seq in Hk.
       rewrite (wterm_fin _ _ _ _ _ _ 3) by (rewrite ?R3; nia). cbn [obind]. rewrite vec_add_fin by lia. reflexivity. }
  cbn [obind]. assert (Lw1 : length (fold_left (addc (prod s y)) (c_first I r3) w) = (n + 1)%nat) by (rewrite fold_addc_length; exact Lw).
  revert Lw1. generalize (fold_left (addc (prod s y)) (c_first I r3) w). clear w Lw. intros w Lw.
  match goal with |- obind (ofold ?b ?l (Fins w)) _ = _ => replace (ofold b l (Fins w)) with (Ret (Fins (fold_left (addc (prod s y)) (c_last I n r3) w))) end.
  2: { symmetry. apply (ofold_contrib (prod s y) _ _ (n + 1)); [|exact Lw]. clear w Lw. intros j w Hj Lw. apply in_seq in Hj. rewrite usize_sub_ok by lia. cbn [obind].
       apply (ofold_contrib1 _ _ _ (n + 1)); [|exact Lw]. clear w Lw. intros k w Hk Lw. apply in_rev, in_seq in Hk.
       rewrite (wterm_fin _ _ _ _ _ _ 3) by (rewrite ?R3; nia). cbn [obind]. rewrite vec_add_fin by lia. reflexivity. }
  cbn [obind]. assert (Lw1 : length (fold_left (addc (prod s y)) (c_last I n r3) w) = (n + 1)%nat) by (rewrite fold_addc_length; exact Lw).
  revert Lw1. generalize (fold_left (addc (prod s y)) (c_last I n r3) w). clear w Lw. intros w Lw.
  rewrite usize_sub_ok by lia. cbn [obind]. replace (n + 1 - 3)%nat with (n - 2)%nat by lia.
  match goal with |- obind (ofold ?b ?l (Fins w)) _ = _ => replace (ofold b l (Fins w)) with (Ret (Fins (fold_left (addc (prod s y)) (c_mid I n r4) w))) end.
  2: { symmetry. apply (ofold_contrib (prod s y) _ _ (n + 1)); [|exact Lw]. clear w Lw. intros j w Hj Lw. apply in_seq in Hj. apply (ofold_contrib _ _ _ (n + 1)); [|exact Lw]. clear w Lw. intros k w Hk Lw. apply in_seq in Hk.
       apply (ofold_contrib1 _ _ _ (n + 1)); [|exact Lw]. clear w Lw; intros q w Hq Lw. apply in_seq in Hq.
       replace (I - 1 + 1)%nat with I by lia.
       rewrite (wterm_fin _ _ _ _ _ _ 4) by (rewrite ?R4; nia). cbn [obind]. rewrite vec_add_fin by lia. reflexivity. }
  cbn [obind]. assert (Lw1 : length (fold_left (addc (prod s y)) (c_mid I n r4) w) = (n + 1)%nat) by (rewrite fold_addc_length; exact Lw).
  revert Lw1. generalize (fold_left (addc (prod s y)) (c_mid I n r4) w). clear w Lw. intros w Lw.
  replace (m - (I * n + 1))%nat with (m - (I * n + 1))%nat by lia. unfold c_tail.
  apply (ofold_contrib1 _ _ _ (n + 1)); [|exact Lw]. clear w Lw. intros j w Hj Lw. apply in_seq in Hj.
  rewrite !oindex_fins by lia. cbn [obind]. rewrite x_mul, vec_add_fin by lia. do 2 f_equal. unfold addc, prod. cbn [fst snd].
  apply list_upd_ext. intro e. ring.
Qed.
Lemma nth_skipn' {A} (d : A) : forall a l k, nth k (skipn a l) d = nth (a + k) l d.
Proof. induction a as [|a IH]; intros l k; [reflexivity|]. destruct l as [|x l]; [destruct k; reflexivity|]. apply IH. Qed.
Lemma step_from_skip {A} k : forall c (l : list A), step_from k c l = step_from k 0 (skipn c l).
Proof. induction c as [|c IH]; intro l; [reflexivity|]. destruct l as [|a l]; [reflexivity|]. cbn [step_from skipn]. apply IH. Qed.
Lemma step_from_spec {A} I (d : A) : (1 <= I)%nat -> forall m l, length l = m -> (1 <= m)%nat ->
  step_from I 0 l = map (fun j => nth (I * j) l d) (seq 0 ((m - 1) / I + 1)).
Proof.
  intro HI. induction m as [m IH] using lt_wf_ind. intros l L Hm. destruct l as [|a l]; [cbn in L; lia|]. cbn [step_from]. rewrite step_from_skip.
  destruct (Nat.le_gt_cases m I) as [C|C].
  - rewrite skipn_all2 by (cbn in L; lia). rewrite Nat.div_small by lia. cbn. rewrite Nat.mul_0_r. reflexivity.
  - rewrite (IH (m - I)%nat); [| lia | rewrite skipn_length; cbn in L; lia | lia].
    replace ((m - 1) / I)%nat with (Datatypes.S ((m - I - 1) / I)).
    2: { replace (m - 1)%nat with (m - I - 1 + 1 * I)%nat by lia. rewrite Nat.div_add by lia. lia. }
    cbn [Nat.add seq map]. rewrite Nat.mul_0_r. f_equal. rewrite <- seq_shift, map_map. apply map_ext. intro j.
    replace (a :: l) with (firstn 1 (a :: l) ++ l) by reflexivity.
    replace (nth (I * Datatypes.S j) (firstn 1 (a :: l) ++ l) d) with (nth (I * Datatypes.S j - 1) l d).
    2: { cbn [firstn app]. destruct (I * Datatypes.S j)%nat eqn:E; [nia|]. cbn [nth]. f_equal. lia. }
    rewrite nth_skipn'. f_equal. nia.
Qed.

(* trimming, vspd.rs 661-683 *)
Lemma nth_list_upd {A} (d : A) f : forall w p j, (p < length w)%nat -> nth j (list_upd w p f) d = if Nat.eqb j p then f (nth j w d) else nth j w d.
Proof.
  induction w as [|a w IH]; intros [|p] [|j] H; cbn in *; try lia; try reflexivity. apply IH. lia.
Qed.
Lemma slice_nth {A} (d : A) : forall k a l, (a + k <= length l)%nat -> firstn k (skipn a l) = map (fun j => nth j l d) (seq a k).
Proof.
  induction k as [|k IH]; intros a l H; [reflexivity|]. cbn [seq map]. rewrite <- (IH (Datatypes.S a) l) by lia.
  destruct (skipn a l) as [|x r] eqn:E; [apply (f_equal (@length A)) in E; rewrite skipn_length in E; cbn in E; lia|].
  pose proof (nth_skipn' d a l 0) as N. rewrite E, Nat.add_0_r in N. cbn in N. rewrite <- N. cbn [firstn]. f_equal. f_equal.
  assert (T : forall a (l : list A) x r, skipn a l = x :: r -> skipn (Datatypes.S a) l = r).
  { clear. induction a as [|a IH]; intros l x r H; destruct l as [|y l]; cbn in *; try discriminate; [congruence|]. apply (IH l x r H). }
  symmetry. apply (T a l x r E).
Qed.
Lemma ofold_gather (body : list xr -> nat -> outcome (list xr)) (q : nat -> nat) p n : (p < n)%nat -> forall l w, length w = n ->
  (forall i w, In i l -> length w = n -> body (Fins w) i = (let! v := oindex (Fins w) (q i) in vec_add (Fins w) p v)) ->
  (forall i, In i l -> (q i < n)%nat /\ q i <> p) ->
  ofold body l (Fins w) = Ret (Fins (list_upd w p (fun e => e + rsum (map (fun i => nth (q i) w 0) l)))).
Proof.
  intro Hp. induction l as [|i l IH]; intros w Lw Hb Hq.
  - cbn. do 2 f_equal. symmetry. apply list_upd_id. intro. unfold rsum. cbn. ring.
  - cbn [ofold]. destruct (Hq i (or_introl eq_refl)) as [Q1 Q2]. rewrite Hb by (auto; now left). rewrite oindex_fins by lia. cbn [obind].
    rewrite vec_add_fin by lia. cbn [obind]. rewrite IH; [|rewrite list_upd_length; exact Lw|intros; apply Hb; [now right|assumption]|intros; apply Hq; now right].
    do 2 f_equal.
    assert (C : forall (w : list R) k f g, list_upd (list_upd w k f) k g = list_upd w k (fun e => g (f e))).
    { clear. induction w as [|a w IH]; intros [|k] f g; cbn; auto. rewrite IH. reflexivity. }
    rewrite C. apply list_upd_ext. intro e. cbn [map]. unfold rsum. cbn [fold_right]. fold (rsum (map (fun i => nth (q i) w 0) l)).
    replace (map (fun i0 => nth (q i0) (list_upd w p (fun e0 => e0 + nth (q i) w 0)) 0) l) with (map (fun i => nth (q i) w 0) l); [unfold rsum; ring|].
    apply map_ext_in. intros j Hj. rewrite nth_list_upd by lia. destruct (Hq j (or_intror Hj)) as [_ N]. apply Nat.eqb_neq in N. rewrite N. reflexivity.
Qed.
Lemma rsum_rev l : rsum (rev l) = rsum l.
Proof. induction l as [|a l IH]; [reflexivity|]. cbn [rev]. rewrite rsum_app, IH. unfold rsum. cbn. ring. Qed.
(* the weights outside are added to the first and last weight kept *)
Definition trimw (a b : nat) (w : list R) : list R :=
  let n := length w in let W := fun j => nth j w 0 in
  map (fun j => W j + (if Nat.eqb j a then sumf W 0 a else 0) + (if Nat.eqb j (n - b - 1) then sumf W (n - b) b else 0)) (seq a (n - b - a)).
Lemma adjust_channel_fin a b w : (a + b < length w)%nat -> adjust_channel a b (Fins w) = Ret (Fins (trimw a b w)).
Proof.
  intro H. set (n := length w). unfold adjust_channel.
  rewrite (ofold_gather _ (fun i => i) a n); [|lia|reflexivity|reflexivity|intros i Hi; apply in_seq in Hi; lia]. cbn [obind].
  set (w1 := list_upd w a _). assert (L1 : length w1 = n) by apply list_upd_length.
  replace (length (Fins w1)) with n by (unfold Fins; rewrite map_length; auto).
  rewrite (ofold_gather _ (fun i => n - i - 1)%nat (n - b - 1) n); [|lia|exact L1| |].
  3: { intros i Hi. apply in_seq in Hi. lia. }
  2: { intros i w' Hi L'. apply in_seq in Hi. rewrite (usize_sub_ok n b) by lia. cbn [obind]. rewrite (usize_sub_ok (n - b) 1) by lia. cbn [obind].
       rewrite (usize_sub_ok n i) by lia. cbn [obind]. rewrite (usize_sub_ok (n - i) 1) by lia. reflexivity. }
  cbn [obind]. rewrite usize_sub_ok by lia. cbn [obind]. replace (Nat.leb a (n - b)) with true by (symmetry; apply Nat.leb_le; lia).
  f_equal. unfold Fins. rewrite skipn_map, firstn_map. f_equal.
  rewrite (slice_nth 0) by (rewrite list_upd_length; lia). unfold trimw. fold n. apply map_ext_in. intros j Hj. apply in_seq in Hj.
  rewrite nth_list_upd by lia. unfold w1 at 1 3. rewrite nth_list_upd by lia.
  assert (S2 : rsum (map (fun i => nth (n - i - 1) w1 0) (seq 0 b)) = sumf (fun j => nth j w 0) (n - b) b).
  { unfold sumf. rewrite <- rsum_rev. f_equal. rewrite <- map_rev. apply nth_ext with (d := 0) (d' := 0); [rewrite !map_length, rev_length, !seq_length; reflexivity|].
    intros k Hk. rewrite map_length, rev_length, seq_length in Hk.
    rewrite nth_indep with (d' := nth (n - 0 - 1) w1 0) by (rewrite map_length, rev_length, seq_length; exact Hk). rewrite map_nth with (d := 0%nat) (f := fun i => nth (n - i - 1) w1 0).
    rewrite rev_nth by (rewrite seq_length; exact Hk). rewrite seq_length, seq_nth by lia.
    rewrite nth_indep with (l := map _ (seq (n - b) b)) (d' := nth 0 w 0) by (rewrite map_length, seq_length; exact Hk). rewrite map_nth with (d := 0%nat) (f := fun i => nth i w 0), seq_nth by lia.
    unfold w1. rewrite nth_list_upd by lia. replace (n - (0 + (b - Datatypes.S k)) - 1)%nat with (n - b + k)%nat by lia.
    destruct (Nat.eqb_spec (n - b + k) a); [lia|reflexivity]. }
  rewrite S2. fold (sumf (fun j => nth j w 0) 0 a).
  destruct (Nat.eqb j (n - b - 1)), (Nat.eqb j a); ring.
Qed.
Lemma sumf_if F c k : forall n a, (a <= k < a + n)%nat -> sumf (fun j => F j + (if Nat.eqb j k then c else 0)) a n = sumf F a n + c.
Proof.
  induction n as [|n IH]; intros a H; [lia|]. rewrite !sumf_S. destruct (Nat.eqb_spec a k) as [->|N].
  - rewrite (sumf_ext _ F (Datatypes.S k) n); [ring|]. intros j Hj. destruct (Nat.eqb_spec j k); [lia|ring].
  - rewrite IH by lia. ring.
Qed.
Lemma rsum_nth w : rsum w = sumf (fun j => nth j w 0) 0 (length w).
Proof.
  unfold sumf. f_equal. apply nth_ext with (d := 0) (d' := 0); [rewrite map_length, seq_length; reflexivity|].
  intros k Hk. rewrite nth_indep with (l := map _ _) (d' := nth 0 w 0) by (rewrite map_length, seq_length; exact Hk).
  rewrite map_nth with (d := 0%nat) (f := fun j => nth j w 0), seq_nth by exact Hk. reflexivity.
Qed.
Lemma trimw_sum a b w : (a + b < length w)%nat -> rsum (trimw a b w) = rsum w.
Proof.
  intro H. set (n := length w). unfold trimw. fold n. set (W := fun j => nth j w 0).
  change (sumf (fun j => W j + (if Nat.eqb j a then sumf W 0 a else 0) + (if Nat.eqb j (n - b - 1) then sumf W (n - b) b else 0)) a (n - b - a) = rsum w).
  rewrite (sumf_if (fun j => W j + (if Nat.eqb j a then sumf W 0 a else 0))) by lia. rewrite sumf_if by lia.
  rewrite rsum_nth. fold n. fold W. transitivity (sumf W 0 (a + ((n - b - a) + b))); [|f_equal; lia]. rewrite !sumf_app. cbn [Nat.add].
  replace (a + (n - b - a))%nat with (n - b)%nat by lia. ring.
Qed.
Lemma trimw_length a b w : length (trimw a b w) = (length w - b - a)%nat.
Proof. unfold trimw. rewrite map_length, seq_length. reflexivity. Qed.
Lemma trimw_scale c a b w : trimw a b (map (Rmult c) w) = map (Rmult c) (trimw a b w).
Proof.
  unfold trimw. rewrite map_length, map_map. apply map_ext. intro j.
  assert (N : forall j, nth j (map (Rmult c) w) 0 = c * nth j w 0) by (intro k; rewrite <- (Rmult_0_r c) at 1; apply map_nth).
  assert (Z : forall p q, sumf (fun j => nth j (map (Rmult c) w) 0) p q = c * sumf (fun j => nth j w 0) p q) by (intros p q; unfold sumf; rewrite <- rsum_scale; apply rsum_ext; intros; apply N).
  rewrite N, !Z. destruct (Nat.eqb j a), (Nat.eqb j _); ring.
Qed.
End Model.
