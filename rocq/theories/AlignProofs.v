(* Lemmas about interpolate, extrapolate and align (vspd.rs) in exact arithmetic *)
From Coq Require Import Reals ZArith QArith Qreals Lra Lia List Bool.
From Flocq Require Import Core.
From Verif Require Import Outcome RealOps MathModel ColorModel InterpModel VspdModel XReal SpecLin VspdProofs SpragueProofs.
Import ListNotations.
Open Scope R_scope.

(* the Sprague interpolant of evenly spaced samples as a real function *)
Definition sv (s h : R) (vals : list R) (x : R) : R :=
  let i := piece (s - 2 * h) h 2 (length vals) x in
  P0 (seg (ext vals) i) ((x - (s - 2 * h + INR i * h)) / h).
(* held constant outside [s, e] *)
Definition av (s e h : R) (vals : list R) (x : R) : R := sv s h vals (Rmax s (Rmin x e)).
Definition at_ (f : R -> R) (l : list R) : list (R * R) := map (fun x => (x, f x)) l.

Lemma at_length f l : length (at_ f l) = length l. Proof. apply map_length. Qed.
Lemma at_app f l m : at_ f (l ++ m) = at_ f l ++ at_ f m. Proof. apply map_app. Qed.
Lemma at_fst f l : map fst (at_ f l) = l.
Proof. unfold at_. rewrite map_map. cbn. apply map_id. Qed.
Lemma at_snd f l : map snd (at_ f l) = map f l.
Proof. unfold at_. rewrite map_map. reflexivity. Qed.
Lemma at_ext f g l : (forall x, In x l -> f x = g x) -> at_ f l = at_ g l.
Proof. intro H. apply map_ext_in. intros x Hx. f_equal. apply H, Hx. Qed.

Lemma in_grid x s i n : In x (grid s i n) <-> exists k, (k < n)%nat /\ x = s + INR k * i.
Proof.
  unfold grid. rewrite in_map_iff. split; intros (k & A & B).
  - exists k. apply in_seq in B. split; [lia|auto].
  - exists k. split; [auto|]. apply in_seq. lia.
Qed.
Lemma grid_steps_in x s e i : 0 < i -> s <= e -> In x (grid s i (steps s e i + 1)) -> s <= x <= e.
Proof.
  intros Hi H Hx. apply in_grid in Hx. destruct Hx as (k & Hk & ->). destruct (steps_spec s e i Hi H) as [A _].
  assert (INR k <= INR (steps s e i)) by (apply le_INR; lia). pose proof (pos_INR k). split; nra.
Qed.
(* the number of steps is characterised by where it ends *)
Lemma steps_unique s e i n : 0 < i -> s + INR n * i <= e < s + INR (S n) * i -> steps s e i = n.
Proof.
  intros Hi [A B]. rewrite S_INR in B. unfold steps. rewrite (Zfloor_imp (Z.of_nat n)); [apply Nat2Z.id|].
  rewrite plus_IZR, <- !INR_IZR_INZ. assert (E : (e - s) / i * i = e - s) by (field; lra).
  split.
  - apply (Rmult_le_reg_r i); [exact Hi|lra].
  - apply (Rmult_lt_reg_r i); [exact Hi|lra].
Qed.

Section A.
Context {K : XConst}.

Lemma interpolate_even debug s e h vals iv a b i : 0 < h -> (2 <= length vals)%nat ->
  e < s + (INR (length vals) + 1) * h -> 0 < i -> Rmax a s <= Rmin b e -> countable (Rmax a s) (Rmin b e) i ->
  vspd_interpolate debug (Vspd (FinSamps (even s h vals)) (SpdShape (Fin s) (Fin e) iv)) (shape a b i)
  = Ret (Vspd (FinSamps (at_ (sv s h vals) (grid (Rmax a s) i (steps (Rmax a s) (Rmin b e) i + 1))))
              (shape (Rmax a s) (Rmin b e) i)).
Proof.
  intros Hh L He Hi Hab Hc. unfold vspd_interpolate. rewrite sprague_new_even by exact L. cbn [obind].
  unfold shape at 1 2 3. cbn [v_start v_end v_shape sh_start sh_end sh_interval]. rewrite x_max, x_min.
  change (SpdShape (Fin (Rmax a s)) (Fin (Rmin b e)) (Uniform (Fin i))) with (shape (Rmax a s) (Rmin b e) i).
  rewrite shape_iter_fin by assumption. cbn [obind].
  assert (E : forall l, (forall x, In x l -> s <= x <= e) ->
    omap (fun nm => let! v := sprague_evaluate debug (Sprague (Fins (grid (s - 2 * h) h (length vals + 4))) (Fins (ext vals))) nm in Ret (Sample nm v)) (Fins l)
    = Ret (FinSamps (at_ (sv s h vals) l))).
  { induction l as [|x l IH]; intro H; [reflexivity|]. cbn [Fins map omap].
    rewrite evaluate_even; [|exact Hh|exact L|]. 2: { specialize (H x (or_introl eq_refl)). lra. }
    cbv zeta. cbn [obind]. fold (Fins l). rewrite IH by (intros; apply H; now right). reflexivity. }
  rewrite E; [reflexivity|]. intros x Hx. apply grid_steps_in in Hx; try assumption.
  pose proof (Rmax_r a s). pose proof (Rmin_r b e). lra.
Qed.

Lemma while_steps (cond : xr -> bool) spd i v : forall n x fuel, (n <= fuel)%nat ->
  (forall k, (k < n)%nat -> cond (Fin (x + INR k * i)) = true) -> cond (Fin (x + INR n * i)) = false ->
  (forall k, (k < n)%nat -> extrapolator_evaluate spd (Fin (x + INR k * i)) = Ret (Fin v)) ->
  extrap_while fuel cond spd (Fin i) (Fin x) = Ret (FinSamps (at_ (fun _ => v) (grid x i n))).
Proof.
  induction n as [|n IH]; intros x fuel Hf Ht Hn Hv.
  - cbn [INR] in Hn. rewrite Rmult_0_l, Rplus_0_r in Hn. destruct fuel; cbn [extrap_while]; rewrite Hn; reflexivity.
  - destruct fuel as [|fuel]; [lia|]. cbn [extrap_while].
    pose proof (Ht 0%nat ltac:(lia)) as H0. cbn [INR] in H0. rewrite Rmult_0_l, Rplus_0_r in H0. rewrite H0.
    pose proof (Hv 0%nat ltac:(lia)) as V0. cbn [INR] in V0. rewrite Rmult_0_l, Rplus_0_r in V0. rewrite V0. cbn [obind].
    rewrite x_add. rewrite (IH (x + i) fuel) ; [rewrite grid_S; reflexivity|lia| | |].
    + intros k Hk. replace (x + i + INR k * i) with (x + INR (S k) * i) by (rewrite S_INR; ring). apply Ht. lia.
    + replace (x + i + INR n * i) with (x + INR (S n) * i) by (rewrite S_INR; ring). exact Hn.
    + intros k Hk. replace (x + i + INR k * i) with (x + INR (S k) * i) by (rewrite S_INR; ring). apply Hv. lia.
Qed.
(* a loop whose condition always holds does not end *)
Lemma while_forever (cond : xr -> bool) spd i : forall fuel x,
  (forall k, cond (Fin (x + INR k * i)) = true) ->
  (forall k, exists v, extrapolator_evaluate spd (Fin (x + INR k * i)) = Ret (Fin v)) ->
  extrap_while fuel cond spd (Fin i) (Fin x) = OutOfFuel.
Proof.
  induction fuel as [|fuel IH]; intros x H V; cbn [extrap_while]; pose proof (H 0%nat) as H0; cbn [INR] in H0;
    rewrite Rmult_0_l, Rplus_0_r in H0; rewrite H0; [reflexivity|].
  destruct (V 0%nat) as [v V0]. cbn [INR] in V0. rewrite Rmult_0_l, Rplus_0_r in V0. rewrite V0. cbn [obind]. rewrite x_add, IH; [reflexivity| |].
  - intro k. replace (x + i + INR k * i) with (x + INR (S k) * i) by (rewrite S_INR; ring). apply H.
  - intro k. replace (x + i + INR k * i) with (x + INR (S k) * i) by (rewrite S_INR; ring). apply V.
Qed.

(* padding counts *)
Definition npre (s a i : R) : nat := Z.to_nat (Zceil ((s - Rmin s a) / i)).
Definition npost (e b i : R) : nat := Z.to_nat (Zfloor ((Rmax e b - e) / i)).
Lemma npre_spec s a i : 0 < i -> s <= Rmin s a + INR (npre s a i) * i
  /\ (forall k, (k < npre s a i)%nat -> Rmin s a + INR k * i < s).
Proof.
  intro Hi. pose proof (Rmin_l s a) as M. assert (Q : (s - Rmin s a) / i * i = s - Rmin s a) by (field; lra).
  assert (P : 0 <= (s - Rmin s a) / i) by nra.
  assert (Z0 : (0 <= Zceil ((s - Rmin s a) / i))%Z) by (apply le_IZR; eapply Rle_trans; [exact P|apply Zceil_ub]).
  unfold npre. split.
  - rewrite INR_IZR_INZ, Z2Nat.id by exact Z0. pose proof (Zceil_ub ((s - Rmin s a) / i)). nra.
  - intros k Hk. assert (C : (Z.of_nat k < Zceil ((s - Rmin s a) / i))%Z) by lia.
    assert (D : IZR (Z.of_nat k) < (s - Rmin s a) / i).
    { destruct (Rlt_dec (IZR (Z.of_nat k)) ((s - Rmin s a) / i)) as [|N]; [assumption|]. exfalso.
      assert (Zceil ((s - Rmin s a) / i) <= Z.of_nat k)%Z by (apply Zceil_glb; lra). lia. }
    rewrite <- INR_IZR_INZ in D. nra.
Qed.
Lemma npost_spec e b i : 0 < i -> Rmax e b < e + i + INR (npost e b i) * i
  /\ (forall k, (k < npost e b i)%nat -> e + i + INR k * i <= Rmax e b).
Proof.
  intro Hi. pose proof (Rmax_l e b) as M. pose proof (steps_spec e (Rmax e b) i Hi M) as [A B]. change (steps e (Rmax e b) i) with (npost e b i) in *.
  rewrite S_INR in B. split; [lra|]. intros k Hk. assert (INR k + 1 <= INR (npost e b i)) by (rewrite <- S_INR; apply le_INR; exact Hk). nra.
Qed.

(* which interval extrapolate uses *)
Definition pad_interval (iv j : interval xr) : option xr :=
  match iv, j with Uniform v, _ => Some v | Varying, Uniform v => Some v | Varying, Varying => None end.

Lemma extrapolate_fin fuel s e iv a b j i v0 l vl : 0 < i -> s <= e + i -> pad_interval iv j = Some (Fin i) ->
  first_opt l = Some (s, v0) -> option_map snd (last_opt l) = Some vl ->
  (npre s a i <= fuel)%nat -> (npost e b i <= fuel)%nat ->
  vspd_extrapolate fuel (Vspd (FinSamps l) (SpdShape (Fin s) (Fin e) iv)) (SpdShape (Fin a) (Fin b) j)
  = Ret (Vspd (FinSamps (at_ (fun _ => v0) (grid (Rmin s a) i (npre s a i)) ++ l
                         ++ at_ (fun _ => vl) (grid (e + i) i (npost e b i)))) (shape a b i)).
Proof.
  intros Hi Hse Hiv Hf Hla F1 F2. unfold vspd_extrapolate. cbn [v_start v_end v_interval v_shape sh_start sh_end sh_interval v_samples].
  set (spd := Vspd _ _).
  assert (EI : (match iv with Uniform v => Ret v | Varying => match j with Uniform v => Ret v | Varying => Panic end end) = Ret (Fin i)).
  { destruct iv, j; cbn in Hiv; try discriminate; injection Hiv as ->; reflexivity. }
  rewrite EI. cbn [obind]. rewrite x_min, x_max, x_add.
  assert (EV : forall x, extrapolator_evaluate spd (Fin x) = Ret (Fin (if Rlt_dec x s then v0 else vl))).
  { intro x. unfold extrapolator_evaluate, v_first, v_last, spd. cbn [v_samples]. unfold FinSamps. rewrite last_opt_map.
    destruct (last_opt l) as [[xl vl']|]; [|discriminate]. cbn in Hla. injection Hla as ->.
    destruct l as [|p l]; [discriminate|]. cbn in Hf. injection Hf as ->. cbn [map first_opt option_map unwrap obind FinSamp s_nm s_v fst snd].
    rewrite x_lt. unfold Rltb. destruct (Rlt_dec x s); reflexivity. }
  destruct (npre_spec s a i Hi) as [A1 A2]. destruct (npost_spec e b i Hi) as [B1 B2].
  rewrite (while_steps _ _ _ v0 (npre s a i)); [|exact F1| | |].
  2: { intros k Hk. rewrite x_lt. apply Rltb_true, A2, Hk. }
  2: { rewrite x_lt. apply Rltb_false, A1. }
  2: { intros k Hk. rewrite EV. destruct (Rlt_dec _ s) as [|N]; [reflexivity|]. exfalso. apply N, A2, Hk. }
  cbn [obind].
  rewrite (while_steps _ _ _ vl (npost e b i)); [|exact F2| | |].
  2: { intros k Hk. rewrite x_le. apply Rleb_true, B2, Hk. }
  2: { rewrite x_le. apply Rleb_false, B1. }
  2: { intros k Hk. rewrite EV. destruct (Rlt_dec _ s) as [N|]; [|reflexivity]. exfalso. pose proof (pos_INR k). nra. }
  cbn [obind]. unfold FinSamps. rewrite !map_app. reflexivity.
Qed.

(* align in general: padding, interpolated samples, padding *)
Definition mid_n (s e a b i : R) : nat := (steps (Rmax a s) (Rmin b e) i + 1)%nat.
Definition aligned (s e h : R) (vals : list R) (a b i : R) : list (R * R) :=
  at_ (fun _ => sv s h vals (Rmax a s)) (grid a i (npre (Rmax a s) a i))
  ++ at_ (sv s h vals) (grid (Rmax a s) i (mid_n s e a b i))
  ++ at_ (fun _ => sv s h vals (Rmax a s + INR (mid_n s e a b i - 1) * i)) (grid (Rmin b e + i) i (npost (Rmin b e) b i)).
Lemma align_even debug fuel s e h vals iv a b i : 0 < h -> (2 <= length vals)%nat ->
  e < s + (INR (length vals) + 1) * h -> 0 < i -> Rmax a s <= Rmin b e -> countable (Rmax a s) (Rmin b e) i ->
  (npre (Rmax a s) a i <= fuel)%nat -> (npost (Rmin b e) b i <= fuel)%nat ->
  vspd_align debug fuel (Vspd (FinSamps (even s h vals)) (SpdShape (Fin s) (Fin e) iv)) (shape a b i)
  = Ret (Vspd (FinSamps (aligned s e h vals a b i)) (shape a b i)).
Proof.
  intros Hh L He Hi Hab Hc F1 F2. unfold vspd_align. rewrite interpolate_even by assumption. cbn [obind].
  unfold shape at 1 2. rewrite (extrapolate_fin fuel (Rmax a s) (Rmin b e) (Uniform (Fin i)) a b (Uniform (Fin i)) i (sv s h vals (Rmax a s)) _
    (sv s h vals (Rmax a s + INR (mid_n s e a b i - 1) * i))); try assumption.
  - unfold aligned. rewrite (Rmin_right (Rmax a s) a) by apply Rmax_l. reflexivity.
  - lra.
  - reflexivity.
  - replace (steps (Rmax a s) (Rmin b e) i + 1)%nat with (S (steps (Rmax a s) (Rmin b e) i)) by lia. rewrite grid_S. reflexivity.
  - unfold at_. rewrite last_opt_map. fold (mid_n s e a b i).
    rewrite (last_opt_nth _ 0) by (intro E; apply (f_equal (@length R)) in E; rewrite grid_length in E; unfold mid_n in E; cbn in E; lia).
    rewrite grid_length, grid_nth by (unfold mid_n; lia). reflexivity.
Qed.

(* s lies on the grid of step i through a *)
Definition on_grid (a i s : R) : Prop := exists m : nat, s = a + INR m * i.
(* when the ends of the spectrum inside the requested range lie on the requested grid, the result is
   that grid, and the values are those of the interpolant held constant outside *)
Lemma aligned_on_grid s e h vals a b i : 0 < h -> (2 <= length vals)%nat -> s <= e -> 0 < i ->
  Rmax a s <= Rmin b e -> (s <= a \/ on_grid a i s) -> (b <= e \/ on_grid a i e) ->
  aligned s e h vals a b i = at_ (av s e h vals) (grid a i (steps a b i + 1)).
Proof.
  intros Hh L Hse Hi Hab Hs He. pose proof (Rmax_l a s) as Ma. pose proof (Rmax_r a s) as Ms. pose proof (Rmin_l b e) as Nb. pose proof (Rmin_r b e) as Ne.
  assert (A : exists m, Rmax a s = a + INR m * i).
  { destruct Hs as [H|[m H]]; [exists 0%nat; rewrite Rmax_left by exact H; cbn; ring|]. exists m. rewrite Rmax_right; [exact H|]. pose proof (pos_INR m). nra. }
  destruct A as [m Em].
  assert (Np : npre (Rmax a s) a i = m).
  { unfold npre. rewrite Rmin_right by exact Ma. rewrite (Zceil_imp (Z.of_nat m)); [apply Nat2Z.id|].
    rewrite minus_IZR, <- INR_IZR_INZ. replace ((Rmax a s - a) / i) with (INR m) by (rewrite Em; field; lra). lra. }
  unfold aligned. rewrite Np. set (q := mid_n s e a b i). set (r := npost (Rmin b e) b i).
  destruct (steps_spec (Rmax a s) (Rmin b e) i Hi Hab) as [S1 S2].
  assert (Q : q = (steps (Rmax a s) (Rmin b e) i + 1)%nat) by reflexivity.
  set (u := steps (Rmax a s) (Rmin b e) i) in *. rewrite S_INR in S2.
  (* the last interpolated point is at the end of the spectrum if padding follows *)
  assert (G : (0 < r)%nat -> e = Rmax a s + INR u * i /\ Rmin b e = e).
  { intro Hr. assert (Lt : e < b).
    { destruct (Rlt_dec e b) as [|N]; [assumption|]. exfalso. destruct (npost_spec (Rmin b e) b i Hi) as [_ B]. specialize (B 0%nat Hr). cbn [INR] in B.
      rewrite (Rmin_left b e) in B by lra. rewrite Rmax_left in B by lra. lra. }
    destruct He as [H|[p Ep]]; [lra|]. rewrite (Rmin_right b e) in * by lra. split; [|reflexivity].
    assert (P : (m <= p)%nat). { apply INR_le. apply (Rmult_le_reg_r i); [exact Hi|]. lra. }
    assert (U : u = (p - m)%nat).
    { apply steps_unique; [exact Hi|]. rewrite ?(Rmin_right b e) by lra. rewrite S_INR, minus_INR by exact P. rewrite Em, Ep. lra. }
    rewrite U, minus_INR, Em, Ep by exact P. ring. }
  assert (T : steps a b i = (m + u + r)%nat).
  { apply steps_unique; [exact Hi|]. rewrite S_INR, !plus_INR. destruct (npost_spec (Rmin b e) b i Hi) as [B1 B2]. fold r in B1, B2.
    assert (Hb : b = Rmax (Rmin b e) b) by (rewrite Rmax_right by exact Nb; reflexivity).
    destruct (Nat.eq_dec r 0) as [R0|R0].
    - rewrite R0 in *. cbn [INR] in *. rewrite <- Hb in B1.
      split; [rewrite Em in S1; lra|]. rewrite Em in S2. destruct He as [H|[p Ep]].
      + rewrite Rmin_left in S2 by exact H. lra.
      + destruct (Rle_dec b e) as [H|H]; [rewrite Rmin_left in S2 by exact H; lra|].
        rewrite (Rmin_right b e) in * by lra.
        assert (P : (m <= p)%nat). { apply INR_le. apply (Rmult_le_reg_r i); [exact Hi|]. lra. }
        assert (U : u = (p - m)%nat). { apply steps_unique; [exact Hi|]. rewrite ?(Rmin_right b e) by lra. rewrite S_INR, minus_INR by exact P. rewrite Em, Ep. lra. }
        rewrite U, minus_INR by exact P. rewrite Ep in B1. lra.
    - destruct (G ltac:(lia)) as [E1 E2]. rewrite E2 in *. rewrite <- Hb in B1. specialize (B2 (r - 1)%nat ltac:(lia)). rewrite <- Hb in B2.
      rewrite minus_INR in B2 by lia. cbn [INR] in B2. rewrite E1, Em in B1, B2. lra. }
  rewrite T. replace (m + u + r + 1)%nat with (m + (q + r))%nat by lia. rewrite grid_app, grid_app, !at_app. rewrite <- Em. f_equal; [|f_equal].
  - apply at_ext. intros x Hx. apply in_grid in Hx. destruct Hx as (k & Hk & ->).
    assert (Lt : a < s). { destruct Hs as [H|H]; [|destruct (Rlt_dec a s); [assumption|]]; exfalso;
      rewrite Rmax_left in Em by lra; assert (0 < INR m) by (change 0 with (INR 0); apply lt_INR; lia); nra. }
    rewrite Rmax_right in * by lra. unfold av. rewrite Rmin_left, Rmax_left; [reflexivity| |].
    + assert (INR k <= INR m) by (apply le_INR; lia). nra.
    + assert (INR k <= INR m) by (apply le_INR; lia). nra.
  - apply at_ext. intros x Hx. rewrite Q in Hx. apply in_grid in Hx. destruct Hx as (k & Hk & ->).
    assert (INR k <= INR u) by (apply le_INR; lia). pose proof (pos_INR k). unfold av. rewrite (Rmin_left (Rmax a s + INR k * i) e) by nra. rewrite (Rmax_right s (Rmax a s + INR k * i)) by nra. reflexivity.
  - destruct (Nat.eq_dec r 0) as [->|R0]; [reflexivity|]. destruct (G ltac:(lia)) as [E1 E2].
    replace (q - 1)%nat with u by lia. rewrite <- E1, E2.
    replace (Rmax a s + INR q * i) with (e + i) by (rewrite Q, plus_INR, E1; cbn [INR]; ring).
    apply at_ext. intros x Hx. apply in_grid in Hx. destruct Hx as (k & Hk & ->).
    pose proof (pos_INR k). unfold av. rewrite Rmin_right, Rmax_right; [reflexivity|lra|nra].
Qed.
End A.
