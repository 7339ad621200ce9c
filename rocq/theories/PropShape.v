(* C48-C50, C60, C62, C70, C71: building, trimming, scaling and comparing spectra *)
From Coq Require Import Reals ZArith QArith Qreals Lra Lia List Bool Sorted.
From Flocq Require Import Core BinarySingleNaN.
From Verif Require Import Outcome RealOps MathModel ColorModel InterpModel VspdModel XReal SpecLin FloatInst FloatProofs VspdProofs.
Import ListNotations.
Open Scope R_scope.

(* ---- C48 ---- *)
Section New.
Context {T : Type} {O : RealOps T}.
Local Open Scope num_scope.
(* the distance between sample k and the one before it *)
Definition gap (samples : list (sample T)) (d : sample T) (k : nat) : T :=
  s_nm (nth k samples d) - s_nm (nth (k - 1) samples d).
Definition gap_ok (samples : list (sample T)) (d : sample T) (k : nat) : bool :=
  rapprox (gap samples d k) (gap samples d 1) (rlitd 0.00000000001) 2.

Lemma fold_andb {A} (f : A -> bool) l : forall b, fold_left (fun s x => s && f x) l b = (b && forallb f l)%bool.
Proof.
  induction l as [|x l IH]; intro b; cbn [fold_left forallb]; [rewrite andb_true_r; reflexivity|].
  rewrite IH, andb_assoc. reflexivity.
Qed.
Lemma calculate_interval_spec samples d : (2 <= length samples)%nat ->
  calculate_interval samples = Ret (if forallb (gap_ok samples d) (seq 1 (length samples - 2))
                                    then Uniform (gap samples d 1) else Varying).
Proof.
  intro L. unfold calculate_interval. destruct (Nat.ltb_spec (length samples) 2); [lia|].
  rewrite (oindex_nth _ 1 d) by lia. rewrite (oindex_nth _ 0 d) by lia. cbn [obind].
  replace (length samples - 1 - 1)%nat with (length samples - 2)%nat by lia.
  rewrite (ofold_ret _ (fun s k => s && gap_ok samples d k)%bool).
  - cbn [obind]. rewrite fold_andb. reflexivity.
  - intros s k Hk. apply in_seq in Hk. rewrite (oindex_nth _ k d) by lia. rewrite (oindex_nth _ (k - 1) d) by lia. reflexivity.
Qed.

(* Partial: that the last gap, too, is approximately the reported interval is missing, because it is
   false (C48_last_gap_unchecked_refuted).  new panics exactly on fewer than two samples; otherwise samples are kept, start and end are
   those of the first and last sample, and the interval is the first gap if all gaps but the
   last are approximately equal to it, Varying if one of them is not *)
Theorem C48_new_shape_partial (samples : list (sample T)) (d : sample T) :
  (vspd_new samples = Panic <-> (length samples < 2)%nat)
  /\ ((2 <= length samples)%nat ->
      exists s, vspd_new samples = Ret s /\ v_samples s = samples
        /\ v_start s = s_nm (nth 0 samples d) /\ v_end s = s_nm (nth (length samples - 1) samples d)
        /\ ((v_interval s = Uniform (gap samples d 1) /\
               forall k, (1 <= k < length samples - 1)%nat -> gap_ok samples d k = true)
            \/ (v_interval s = Varying /\ exists k, (1 <= k < length samples - 1)%nat /\ gap_ok samples d k = false))).
Proof.
  assert (A : (2 <= length samples)%nat ->
      exists s, vspd_new samples = Ret s /\ v_samples s = samples
        /\ v_start s = s_nm (nth 0 samples d) /\ v_end s = s_nm (nth (length samples - 1) samples d)
        /\ ((v_interval s = Uniform (gap samples d 1) /\
               forall k, (1 <= k < length samples - 1)%nat -> gap_ok samples d k = true)
            \/ (v_interval s = Varying /\ exists k, (1 <= k < length samples - 1)%nat /\ gap_ok samples d k = false))).
  { intro L. unfold vspd_new, calculate_shape. destruct (Nat.ltb_spec (length samples) 2); [lia|].
    rewrite (calculate_interval_spec samples d L). rewrite (last_opt_nth samples d) by (intros ->; cbn in L; lia).
    destruct samples as [|a samples]; [cbn in L; lia|]. cbn [first_opt unwrap obind].
    eexists. split; [reflexivity|]. cbn [v_samples v_start v_end v_interval v_shape sh_start sh_end sh_interval].
    split; [reflexivity|]. split; [reflexivity|]. split; [reflexivity|].
    destruct (forallb _ _) eqn:E.
    - left. split; [reflexivity|]. intros k Hk. rewrite forallb_forall in E. apply E. apply in_seq. lia.
    - right. split; [reflexivity|].
      assert (Hx : exists k, In k (seq 1 (length (a :: samples) - 2)) /\ gap_ok (a :: samples) d k = false).
      { clear - E. induction (seq 1 _) as [|x l IH]; [discriminate|]. cbn [forallb] in E. destruct (gap_ok (a :: samples) d x) eqn:F.
        - destruct (IH E) as (k & I & G). exists k. split; [now right|exact G].
        - exists x. split; [now left|exact F]. }
      destruct Hx as (k & I & F). exists k. apply in_seq in I. split; [lia|exact F]. }
  split; [|exact A]. split.
  - intro P. destruct (Nat.ltb_spec (length samples) 2) as [H|H]; [exact H|]. destruct (A H) as (s & E & _). congruence.
  - intro L. unfold vspd_new, calculate_shape. destruct (Nat.ltb_spec (length samples) 2); [reflexivity|lia].
Qed.
End New.

Section X.
Context {K : XConst}.

(* the last gap is never looked at: the four samples 0, 10, 20, 25 count as uniformly spaced *)
Theorem C48_last_gap_unchecked_refuted : XConstOk K ->
  exists samples s, vspd_new samples = Ret s /\ v_interval s = Uniform (Fin 10)
    /\ gap samples (Sample Bad Bad) 3 = Fin 5.
Proof.
  intro H. set (l := FinSamps [(0, 1); (10, 1); (20, 1); (25, 1)]).
  destruct (C48_new_shape_partial l (Sample Bad Bad)) as [_ A]. destruct (A ltac:(cbn; lia)) as (s & E & _ & _ & _ & I).
  exists l, s. split; [exact E|]. destruct I as [[I _]|[_ (k & Hk & F)]].
  - split; [rewrite I; unfold gap; cbn; do 2 f_equal; ring|unfold gap; cbn; f_equal; lra].
  - exfalso. assert (G : gap_ok l (Sample Bad Bad) k = true); [|congruence].
    unfold l in Hk. cbn in Hk. unfold gap_ok, gap, l.
    assert (C : k = 1%nat \/ k = 2%nat) by lia. destruct C as [->| ->]; cbn; apply xapprox_margin;
      rewrite (Rabs_pos_eq) by lra; q2r; lra.
Qed.
(* evenly spaced samples are found to be uniform *)
Theorem C48_grid_uniform s i (vals : list R) : XConstOk K -> (2 <= length vals)%nat ->
  exists v, vspd_new (FinSamps (combine (grid s i (length vals)) vals)) = Ret v
    /\ v_shape v = shape s (s + INR (length vals - 1) * i) i.
Proof.
  intros HK L. set (l := FinSamps _).
  assert (N : length l = length vals) by (unfold l, FinSamps; rewrite map_length, combine_length, grid_length; lia).
  assert (G : forall k, (k < length vals)%nat -> s_nm (nth k l (Sample Bad Bad)) = Fin (s + INR k * i)).
  { intros k Hk. unfold l, FinSamps. change (Sample Bad Bad) with (Sample Bad Bad : sample xr).
    rewrite (nth_indep _ _ (FinSamp (0, 0))) by (change (map FinSamp (combine (grid s i (length vals)) vals)) with l; lia).
    rewrite map_nth, combine_nth by apply grid_length. cbn [FinSamp s_nm fst]. rewrite grid_nth by exact Hk. reflexivity. }
  assert (D : forall k, (1 <= k < length vals)%nat -> exists g, gap l (Sample Bad Bad) k = Fin g /\ g = i).
  { intros k Hk. unfold gap. rewrite !G by lia. rewrite x_sub. eexists. split; [reflexivity|].
    replace (INR k) with (INR (S (k - 1))) by (f_equal; lia). rewrite S_INR. ring. }
  destruct (C48_new_shape_partial l (Sample Bad Bad)) as [_ A]. destruct (A ltac:(lia)) as (v & E & _ & B & C & I).
  exists v. split; [exact E|]. destruct v as [vs [a b j]]. cbn [v_shape v_start v_end v_interval sh_start sh_end sh_interval] in *.
  rewrite B, C, N, !G by lia. unfold shape. destruct (D 1%nat ltac:(lia)) as (g1 & E1 & F1).
  destruct I as [[I _]|[_ (k & Hk & F)]].
  - rewrite I, E1, F1. f_equal. f_equal. cbn. ring.
  - exfalso. unfold gap_ok in F. rewrite N in Hk. destruct (D k ltac:(lia)) as (g & Eg & Fg). rewrite Eg, E1, Fg, F1 in F.
    cbn in F. rewrite xapprox_margin in F; [discriminate|]. replace (i - i) with 0 by ring. rewrite Rabs_R0. q2r; lra.
Qed.
Example C48_example : XConstOk K -> exists v, vspd_new (FinSamps [(400, 3); (405, 1); (410, 2)]) = Ret v /\ v_shape v = shape 400 410 5.
Proof.
  intro H. destruct (C48_grid_uniform 400 5 [3; 1; 2] H ltac:(cbn; lia)) as (v & E & F). exists v. split.
  - rewrite <- E. f_equal. unfold grid, FinSamps, FinSamp. cbn. leq; lra.
  - rewrite F. unfold shape. cbn. leq; lra.
Qed.

(* ---- C49 ---- *)
Theorem C49_iter_grid s e i : 0 < i -> s <= e -> countable s e i ->
  exists l, shape_iter (shape s e i) = Ret (Fins l)
    /\ length l = (Z.to_nat (Zfloor ((e - s) / i)) + 1)%nat
    /\ (forall k, (k < length l)%nat -> nth k l 0 = s + INR k * i)
    /\ (forall x, In x l -> s <= x <= e)
    /\ e < s + INR (length l) * i.
Proof.
  intros Hi Hse Hc. exists (grid s i (steps s e i + 1)). rewrite grid_length.
  destruct (steps_spec s e i Hi Hse) as [A B].
  repeat apply conj; [apply shape_iter_fin; assumption|reflexivity|intros k Hk; apply grid_nth, Hk| |replace (steps s e i + 1)%nat with (S (steps s e i)) by lia; exact B].
  intros x Hx. unfold grid in Hx. apply in_map_iff in Hx. destruct Hx as (k & <- & Hk). apply in_seq in Hk.
  assert (P : INR k <= INR (steps s e i)) by (apply le_INR; lia). pose proof (pos_INR k). split; nra.
Qed.
Theorem C49_iter_reversed s e i : 0 < i -> e < s ->
  shape_iter (shape s e i) = (if Rle_dec e (s - i) then Panic else Ret [Fin s]).
Proof.
  intros Hi H. destruct (Rle_dec e (s - i)); [apply shape_iter_panic; assumption|apply shape_iter_one; lra].
Qed.
Theorem C49_iter_varying s e : shape_iter (SpdShape s e (Varying : interval xr)) = Panic.
Proof. reflexivity. Qed.
Example C49_example : shape_iter (shape 380 398 5) = Ret [Fin 380; Fin 385; Fin 390; Fin 395].
Proof.
  rewrite shape_iter_fin by (unfold countable; lra). unfold steps.
  replace (Zfloor ((398 - 380) / 5)) with 3%Z by (symmetry; apply Zfloor_imp; cbn; lra).
  change (Z.to_nat 3) with 3%nat. unfold Fins, grid. cbn. leq; lra.
Qed.

(* ---- C50 ---- *)
Theorem C50_constant s e i v : 0 < i -> s <= e -> countable s e i ->
  ((e < s + i)%R -> vspd_constant (shape s e i) (Fin v) = Panic)
  /\ ((s + i <= e)%R -> exists r l, vspd_constant (shape s e i) (Fin v) = Ret r
       /\ shape_iter (shape s e i) = Ret l
       /\ v_samples r = map (fun nm => Sample nm (Fin v)) l /\ v_shape r = shape s e i).
Proof.
  intros Hi Hse Hc. unfold vspd_constant. rewrite shape_iter_fin by assumption. cbn [obind].
  unfold Fins. rewrite !map_length, grid_length. destruct (steps_spec s e i Hi Hse) as [A B].
  split; intro H.
  - assert (Z : steps s e i = 0%nat).
    { destruct (steps s e i) as [|m]; [reflexivity|]. exfalso. rewrite S_INR in A. pose proof (pos_INR m). nra. }
    rewrite Z. reflexivity.
  - assert (Z : (1 <= steps s e i)%nat).
    { destruct (steps s e i) as [|m]; [|lia]. exfalso. cbn in B. lra. }
    destruct (Nat.ltb_spec (steps s e i + 1) 2); [lia|]. eexists _, _. repeat apply conj; reflexivity.
Qed.
Theorem C50_from_values s e i (vals : list R) : 0 < i -> countable s e i ->
  vspd_from_values (shape s e i) (Fins vals)
  = (if Rle_dec s e then
       if (Nat.leb 2 (length vals) && Nat.eqb (length vals) (Z.to_nat (Zfloor ((e - s) / i)) + 1))%bool
       then Ret (Vspd (FinSamps (combine (grid s i (length vals)) vals)) (shape s e i))
       else Panic
     else Panic).
Proof.
  intros Hi Hc. unfold vspd_from_values. unfold Fins at 1. rewrite map_length.
  destruct (Nat.ltb_spec (length vals) 2) as [L|L].
  { replace (Nat.leb 2 (length vals)) with false by (symmetry; apply Nat.leb_gt; exact L). cbn [andb]. destruct (Rle_dec s e); reflexivity. }
  replace (Nat.leb 2 (length vals)) with true by (symmetry; apply Nat.leb_le; exact L). cbn [andb].
  unfold shape at 1 2 3 4. cbn [sh_interval sh_end sh_start]. rewrite x_sub, x_div by lra.
  assert (Q : (e - s) / i * i = e - s) by (field; lra).
  unfold Fins at 1. rewrite map_length.
  destruct (Rle_dec s e) as [P|P].
  - assert (Q0 : 0 <= (e - s) / i) by nra.
    assert (U : as_usize (Fin ((e - s) / i)) = steps s e i).
    { unfold as_usize, steps. cbn. rewrite Ztrunc_floor by exact Q0. f_equal.
      assert (0 <= Zfloor ((e - s) / i))%Z by (apply Zfloor_lub; exact Q0).
      assert (Zfloor ((e - s) / i) < 18446744073709551616)%Z.
      { apply lt_IZR. apply Rle_lt_trans with ((e - s) / i); [apply Zfloor_lb|exact Hc]. }
      unfold usize_max. lia. }
    rewrite U. fold (steps s e i).
    destruct (Nat.eqb_spec (S (steps s e i)) (length vals)) as [E|E]; destruct (Nat.eqb_spec (length vals) (steps s e i + 1)) as [F|F]; try lia; cbn [negb].
    + change (SpdShape (Fin s) (Fin e) (Uniform (Fin i))) with (shape s e i). rewrite shape_iter_fin by assumption. cbn [obind]. rewrite <- F. do 2 f_equal.
      unfold Fins, FinSamps. generalize (grid s i (length vals)). intro g. clear. revert g.
      induction vals as [|v vals IH]; intros [|x g]; try reflexivity. cbn [map combine]. rewrite IH. reflexivity.
    + reflexivity.
  - assert (U : as_usize (Fin ((e - s) / i)) = 0%nat).
    { unfold as_usize. cbn. rewrite Ztrunc_ceil by nra.
      assert (Zceil ((e - s) / i) <= 0)%Z by (apply Zceil_glb; cbn; nra). unfold usize_max. lia. }
    rewrite U. destruct (Nat.eqb_spec 1 (length vals)); [lia|]. reflexivity.
Qed.
Theorem C50_varying s e (v : xr) vals : vspd_constant (SpdShape s e Varying) v = Panic /\ vspd_from_values (SpdShape s e Varying) vals = Panic.
Proof. split; [reflexivity|]. unfold vspd_from_values. destruct (Nat.ltb _ _); reflexivity. Qed.
Example C50_example : vspd_from_values (shape 400 410 5) (Fins [1; 2; 3])
  = Ret (Vspd [Sample (Fin 400) (Fin 1); Sample (Fin 405) (Fin 2); Sample (Fin 410) (Fin 3)] (shape 400 410 5)).
Proof.
  rewrite C50_from_values by (unfold countable; lra). destruct (Rle_dec 400 410); [|lra].
  replace (Zfloor ((410 - 400) / 5)) with 2%Z by (symmetry; apply Zfloor_imp; cbn; lra).
  change (Z.to_nat 2) with 2%nat. cbn. unfold FinSamps, FinSamp. cbn. leq; lra.
Qed.

(* ---- C60 ---- *)
Definition increasing (l : list (R * R)) : Prop := StronglySorted (fun a b => fst a <= fst b) l.
Definition inside (a b : R) (p : R * R) : bool := Rleb a (fst p) && Rleb (fst p) b.

Lemma trim_list a b l : increasing l ->
  take_while (fun s => rle (s_nm s) (Fin b)) (skip_while (fun s => rlt (s_nm s) (Fin a)) (FinSamps l))
  = FinSamps (filter (inside a b) l).
Proof.
  intro H.
  assert (T : forall l, increasing l -> Forall (fun p => a <= fst p) l ->
     take_while (fun s => rle (s_nm s) (Fin b)) (FinSamps l) = FinSamps (filter (inside a b) l)).
  { clear. induction l as [|p l IH]; intros S F; [reflexivity|]. inversion S as [|? ? S' L]; subst. inversion F as [|? ? F0 F']; subst.
    cbn [FinSamps map take_while filter FinSamp s_nm]. rewrite x_le. unfold inside at 1. rewrite (Rleb_true a (fst p) F0). cbn [andb].
    destruct (Rleb_spec (fst p) b) as [B|B].
    - cbn [map]. f_equal. apply IH; assumption.
    - replace (filter (inside a b) l) with (@nil (R * R)); [reflexivity|]. symmetry. clear - L B.
      induction l as [|q l IH]; [reflexivity|]. inversion L; subst. cbn [filter]. unfold inside. rewrite (Rleb_false (fst q) b) by lra.
      rewrite andb_false_r. apply IH. assumption. }
  induction l as [|p l IH]; [reflexivity|]. inversion H as [|? ? S' L]; subst.
  cbn [FinSamps map skip_while FinSamp s_nm]. rewrite x_lt. destruct (Rltb_spec (fst p) a) as [B|B].
  - cbn [filter]. unfold inside at 1. rewrite (Rleb_false a (fst p)) by lra. cbn [andb]. apply IH, S'.
  - change (FinSamp p :: map FinSamp l) with (FinSamps (p :: l)). apply T; [exact H|].
    constructor; [lra|]. clear - L B. eapply Forall_impl; [|exact L]. cbn. intros; lra.
Qed.
Theorem C60_trim_is_filter (l : list (R * R)) sh a b j : increasing l ->
  vspd_trim (Vspd (FinSamps l) sh) (SpdShape (Fin a) (Fin b) j)
  = match filter (inside a b) l with
    | [] => Panic
    | p :: rest => Ret (Vspd (FinSamps (p :: rest))
                         (SpdShape (Fin (fst p)) (Fin (fst (last rest p))) (sh_interval sh)))
    end.
Proof.
  intro H. unfold vspd_trim. cbn [v_samples sh_start sh_end v_interval v_shape]. rewrite (trim_list a b l H).
  destruct (filter (inside a b) l) as [|p rest]; [reflexivity|].
  assert (L : last_opt (FinSamps (p :: rest)) = Some (FinSamp (last rest p))).
  { unfold FinSamps. rewrite last_opt_map. replace (last_opt (p :: rest)) with (Some (last rest p)); [reflexivity|].
    clear. revert p. induction rest as [|q rest IH]; intro p; [reflexivity|]. change (last_opt (p :: q :: rest)) with (last_opt (q :: rest)).
    rewrite <- IH. f_equal. clear. revert p q. induction rest as [|r rest IH]; intros; [reflexivity|]. cbn [last]. destruct rest; [reflexivity|apply IH]. }
  rewrite L. reflexivity.
Qed.
Theorem C60_trim_panics (l : list (R * R)) sh a b j : increasing l ->
  (vspd_trim (Vspd (FinSamps l) sh) (SpdShape (Fin a) (Fin b) j) = Panic <-> (forall p, In p l -> fst p < a \/ b < fst p)).
Proof.
  intro H. rewrite C60_trim_is_filter by exact H.
  assert (E : forall p, In p (filter (inside a b) l) <-> In p l /\ a <= fst p <= b).
  { intro p. rewrite filter_In. unfold inside. destruct (Rleb_spec a (fst p)), (Rleb_spec (fst p) b); cbn; intuition (discriminate || lra). }
  split.
  - destruct (filter (inside a b) l) as [|q rest] eqn:F; [|discriminate]. intros _ p Hp.
    destruct (Rlt_dec (fst p) a) as [|A]; [now left|]. destruct (Rlt_dec b (fst p)) as [|B]; [now right|]. exfalso.
    apply (proj2 (E p)). split; [exact Hp|lra].
  - intro N. destruct (filter (inside a b) l) as [|q rest] eqn:F; [reflexivity|]. exfalso.
    destruct (proj1 (E q) (or_introl eq_refl)) as [I Q]. destruct (N q I); lra.
Qed.
Example C60_example : vspd_trim (Vspd (FinSamps [(380, 1); (390, 2); (400, 3); (410, 4)]) (shape 380 410 10)) (shape 385 400 1)
  = Ret (Vspd (FinSamps [(390, 2); (400, 3)]) (shape 390 400 10)).
Proof.
  unfold shape at 2. rewrite C60_trim_is_filter.
  - unfold inside. cbn [filter fst]. rewrite (Rleb_false 385 380), (Rleb_false 410 400) by lra. rewrite !Rleb_true by lra. reflexivity.
  - repeat constructor; cbn; lra.
Qed.

(* ---- C62 ---- *)
Theorem C62_linspace a b n : (2 <= n)%nat ->
  exists l, linspace (Fin a) (Fin b) n = Ret (Fins l) /\ length l = n
    /\ nth 0 l 0 = a /\ nth (n - 1) l 0 = b
    /\ (forall k, (k < n)%nat -> nth k l 0 = a + INR k * ((b - a) / INR (n - 1))).
Proof.
  intro L. assert (P : INR (n - 1) <> 0) by (apply not_0_INR; lia).
  exists (grid a ((b - a) / INR (n - 1)) n). rewrite grid_length, !grid_nth by lia.
  repeat apply conj; [|reflexivity|cbn; ring|field; exact P|intros; apply grid_nth; assumption].
  unfold linspace. rewrite usize_sub_ok by lia. cbn [obind]. rewrite of_usize_fin, x_sub, x_div by exact P.
  unfold Fins, grid. rewrite map_map. f_equal. apply map_ext. intro k. rewrite of_usize_fin. xs. f_equal. ring.
Qed.
(* one step divides by zero, none underflows *)
Theorem C62_linspace_small a b : linspace (Fin a) (Fin b) 1 = Ret [Bad] /\ linspace (Fin a) (Fin b) 0 = Panic.
Proof.
  split; [|reflexivity]. unfold linspace. cbn [usize_sub Nat.leb Nat.sub obind seq map]. rewrite !of_usize_fin, x_sub. cbn [INR].
  rewrite x_div0. reflexivity.
Qed.
Example C62_example : linspace (Fin 0) (Fin 1) 5 = Ret (Fins [0; 1/4; 1/2; 3/4; 1]).
Proof.
  unfold linspace. cbn [usize_sub Nat.leb Nat.sub obind seq map]. rewrite !of_usize_fin. cbn [INR]. rewrite x_sub, x_div by lra.
  xs. unfold Fins. cbn [map]. leq; lra.
Qed.
End X.

(* ---- C70 ---- *)
Section Scale.
Context {T : Type} {O : RealOps T}.
Local Open Scope num_scope.

(* new looks at the values of samples only to copy them *)
Lemma new_map (f : T -> T) l : calculate_shape (map (fun s => Sample (s_nm s) (f (s_v s))) l) = calculate_shape l.
Proof.
  set (g := fun s : sample T => Sample (s_nm s) (f (s_v s))).
  unfold calculate_shape. rewrite map_length. destruct (Nat.ltb_spec (length l) 2) as [|L]; [reflexivity|].
  destruct l as [|a l]; [cbn in L; lia|]. rewrite last_opt_map. destruct (last_opt_some (a :: l) ltac:(discriminate)) as (b & E). rewrite E.
  cbn [map first_opt unwrap obind option_map].
  rewrite (calculate_interval_spec (a :: l) a L).
  change (g a :: map g l) with (map g (a :: l)). rewrite (calculate_interval_spec (map g (a :: l)) (g a)) by (rewrite map_length; exact L).
  rewrite map_length. cbn [obind].
  assert (G : forall k, gap (map g (a :: l)) (g a) k = gap (a :: l) a k).
  { intro k. unfold gap. rewrite !map_nth. reflexivity. }
  assert (F : forallb (gap_ok (map g (a :: l)) (g a)) (seq 1 (length (a :: l) - 2)) = forallb (gap_ok (a :: l) a) (seq 1 (length (a :: l) - 2))).
  { generalize (seq 1 (length (a :: l) - 2)). intro q. induction q as [|k q IH]; [reflexivity|]. cbn [forallb]. rewrite IH. f_equal.
    unfold gap_ok. rewrite !G. reflexivity. }
  rewrite F, G. reflexivity.
Qed.
(* multiplication and division by a number, for spectra made by new (or collect) *)
Theorem C70_scaling_keeps_wavelengths samples spd k : vspd_new samples = Ret spd ->
  (exists m, vspd_mul spd k = Ret m /\ v_wavelengths m = v_wavelengths spd
     /\ v_values m = map (fun v => v * k) (v_values spd) /\ v_shape m = v_shape spd)
  /\ (exists m, vspd_div spd k = Ret m /\ v_wavelengths m = v_wavelengths spd
     /\ v_values m = map (fun v => v / k) (v_values spd) /\ v_shape m = v_shape spd).
Proof.
  intro H. unfold vspd_new in H. destruct (calculate_shape samples) as [sh| |] eqn:E; try discriminate. cbn [obind] in H. injection H as <-.
  unfold vspd_mul, vspd_div, vspd_new, v_wavelengths, v_values. cbn [v_samples v_shape]. rewrite (new_map (fun v => v * k)), (new_map (fun v => v / k)), E. cbn [obind].
  split; eexists; (split; [reflexivity|]); cbn [v_samples v_shape]; rewrite !map_map; repeat apply conj; reflexivity.
Qed.
(* any spectrum: only the samples matter, two of them are needed, and the shape is found again *)
Theorem C70_scaling_any spd k :
  (vspd_mul spd k = Panic <-> (length (v_samples spd) < 2)%nat)
  /\ (vspd_div spd k = Panic <-> (length (v_samples spd) < 2)%nat)
  /\ (forall m, vspd_mul spd k = Ret m -> v_wavelengths m = v_wavelengths spd /\ v_values m = map (fun v => v * k) (v_values spd))
  /\ (forall m, vspd_div spd k = Ret m -> v_wavelengths m = v_wavelengths spd /\ v_values m = map (fun v => v / k) (v_values spd)).
Proof.
  unfold vspd_mul, vspd_div. split; [|split; [|split]].
  - destruct (v_samples spd) as [|d l] eqn:E; [split; [cbn; lia|reflexivity]|].
    rewrite (proj1 (C48_new_shape_partial _ d)), map_length. reflexivity.
  - destruct (v_samples spd) as [|d l] eqn:E; [split; [cbn; lia|reflexivity]|].
    rewrite (proj1 (C48_new_shape_partial _ d)), map_length. reflexivity.
  - intros m H. unfold vspd_new in H. destruct (calculate_shape _); try discriminate. injection H as <-.
    unfold v_wavelengths, v_values. cbn [v_samples]. rewrite !map_map. split; reflexivity.
  - intros m H. unfold vspd_new in H. destruct (calculate_shape _); try discriminate. injection H as <-.
    unfold v_wavelengths, v_values. cbn [v_samples]. rewrite !map_map. split; reflexivity.
Qed.
End Scale.
(* without the proviso the shape may change: constant over 0 .. 25 step 10 has its last sample at 20 *)
Theorem C70_shape_kept_refuted {K : XConst} : XConstOk K ->
  exists spd m, vspd_constant (shape 0 25 10) (Fin 1) = Ret spd /\ vspd_mul spd (Fin 1) = Ret m
    /\ v_end spd = Fin 25 /\ v_end m = Fin 20.
Proof.
  intro H. eexists _, _. unfold vspd_constant. rewrite shape_iter_fin by (unfold countable; lra). unfold steps.
  replace (Zfloor ((25 - 0) / 10)) with 2%Z by (symmetry; apply Zfloor_imp; cbn; lra).
  change (Z.to_nat 2) with 2%nat. unfold Fins, grid. cbn [obind map seq Nat.add length Nat.ltb Nat.leb].
  split; [reflexivity|]. split.
  - unfold vspd_mul, vspd_new. cbn [v_samples map s_nm s_v]. unfold calculate_shape.
    rewrite (calculate_interval_spec _ (Sample Bad Bad)) by (cbn; lia). cbn [length Nat.ltb Nat.leb first_opt last_opt unwrap obind]. reflexivity.
  - split; [reflexivity|]. unfold v_end. cbn. f_equal. lra.
Qed.
Example C70_example {K : XConst} : XConstOk K -> exists spd m, vspd_new (FinSamps [(400, 3); (405, 1); (410, 2)]) = Ret spd
  /\ vspd_mul spd (Fin 10) = Ret m /\ v_values m = Fins [30; 10; 20] /\ v_shape m = shape 400 410 5.
Proof.
  intro H. destruct (C48_example H) as (spd & E & F). destruct (C70_scaling_keeps_wavelengths _ spd (Fin 10) E) as [(m & M & _ & V & S) _].
  exists spd, m. repeat apply conj; [exact E|exact M| |rewrite S; exact F]. rewrite V.
  destruct (C48_new_shape_partial (FinSamps [(400, 3); (405, 1); (410, 2)]) (Sample Bad Bad)) as [_ A].
  destruct (A ltac:(cbn; lia)) as (s & E' & G & _). rewrite E in E'. injection E' as <-. unfold v_values. rewrite G.
  cbn. unfold Fins. cbn. leq; lra.
Qed.

(* ---- C71 ---- *)
Section Eqv.
Context {T : Type} {O : RealOps T}.
(* what a vspd == relies on: == of numbers is symmetric and transitive; NaN-free numbers equal themselves *)
Definition eq_ok (P : T -> Prop) : Prop :=
  (forall x y, req x y = req y x) /\ (forall x y z, req x y = true -> req y z = true -> req x z = true) /\ (forall x, P x -> req x x = true).
Definition interval_all (P : T -> Prop) (i : interval T) : Prop := match i with Uniform x => P x | Varying => True end.
(* P holds of every number in the spectrum *)
Definition vspd_all (P : T -> Prop) (s : vspd T) : Prop :=
  Forall (fun p => P (s_nm p) /\ P (s_v p)) (v_samples s) /\ P (sh_start (v_shape s)) /\ P (sh_end (v_shape s)) /\ interval_all P (sh_interval (v_shape s)).

Lemma vspd_eqb_spec a b : vspd_eqb a b = true <->
  Forall2 (fun l r => req (s_nm l) (s_nm r) = true /\ req (s_v l) (s_v r) = true) (v_samples a) (v_samples b)
  /\ shape_eqb (v_shape a) (v_shape b) = true.
Proof.
  unfold vspd_eqb. rewrite !andb_true_iff, Nat.eqb_eq. generalize (v_samples a) (v_samples b). intros l m.
  assert (E : (length l = length m /\ forallb (fun '(x, y) => sample_eqb x y) (combine l m) = true)
     <-> Forall2 (fun l r => req (s_nm l) (s_nm r) = true /\ req (s_v l) (s_v r) = true) l m).
  { revert m. induction l as [|x l IH]; intros [|y m].
    - split; [constructor|split; reflexivity].
    - split; [intros [H _]; discriminate|intro H; inversion H].
    - split; [intros [H _]; discriminate|intro H; inversion H].
    - cbn [length combine forallb]. rewrite andb_true_iff. split.
      + intros [H [S F]]. constructor; [apply andb_true_iff; exact S|]. apply IH. split; [now injection H|exact F].
      + intro H. inversion H as [|? ? ? ? S F]; subst. apply IH in F. destruct F as [L F]. repeat apply conj; [now rewrite L|apply andb_true_iff; exact S|exact F]. }
  rewrite <- E. tauto.
Qed.
Lemma interval_eqb_ok P : eq_ok P ->
  (forall a b : interval T, interval_eqb a b = true -> interval_eqb b a = true)
  /\ (forall a b c : interval T, interval_eqb a b = true -> interval_eqb b c = true -> interval_eqb a c = true)
  /\ (forall a, interval_all P a -> interval_eqb a a = true).
Proof.
  intros (S & Tr & R). repeat apply conj.
  - intros [x|] [y|]; cbn; try discriminate; [rewrite S; auto|auto].
  - intros [x|] [y|] [z|]; cbn; try discriminate; [apply Tr|auto].
  - intros [x|]; cbn; auto.
Qed.
Lemma vspd_eqb_equiv P : eq_ok P ->
  (forall a b : vspd T, vspd_eqb a b = vspd_eqb b a)
  /\ (forall a b c : vspd T, vspd_eqb a b = true -> vspd_eqb b c = true -> vspd_eqb a c = true)
  /\ (forall a : vspd T, vspd_all P a -> vspd_eqb a a = true).
Proof.
  intro H. destruct (interval_eqb_ok P H) as (IS & IT & IR). destruct H as (S & Tr & R).
  assert (Sym : forall a b : vspd T, vspd_eqb a b = true -> vspd_eqb b a = true).
  { intros a b. rewrite !vspd_eqb_spec. unfold shape_eqb. rewrite !andb_true_iff. intros (F & (A & B) & C).
    rewrite (S (sh_start (v_shape b))), (S (sh_end (v_shape b))). repeat apply conj; auto.
    revert F. generalize (v_samples a) (v_samples b). intros l m F. induction F as [|x y l m [E1 E2] F IH]; constructor; [|exact IH].
    rewrite (S (s_nm y)), (S (s_v y)). auto. }
  repeat apply conj.
  - intros a b. destruct (vspd_eqb a b) eqn:E, (vspd_eqb b a) eqn:F; try reflexivity.
    + apply Sym in E. congruence.
    + apply Sym in F. congruence.
  - intros a b c. rewrite !vspd_eqb_spec. unfold shape_eqb. rewrite !andb_true_iff. intros (F & (A & B) & C) (F' & (A' & B') & C').
    repeat apply conj; [|eapply Tr; eassumption|eapply Tr; eassumption|eapply IT; eassumption].
    revert F F'. generalize (v_samples a) (v_samples b) (v_samples c). intros l m n F. revert n.
    induction F as [|x y l m [E1 E2] F IH]; intros n G; inversion G as [|? z ? ? [E3 E4] G']; subst; constructor; [|apply IH; assumption].
    split; eapply Tr; eassumption.
  - intros a (F & A & B & C). apply vspd_eqb_spec. unfold shape_eqb. rewrite !andb_true_iff. repeat apply conj; auto.
    induction F as [|x l [E1 E2] F IH]; constructor; [auto|exact IH].
Qed.
End Eqv.

Section FloatEq.
Context (prec emax : Z) {Hp : Prec_gt_0 prec} {He : Prec_lt_emax prec emax} (L : libm (binary_float prec emax)) (lit : Q -> binary_float prec emax).
Local Instance flops : RealOps (binary_float prec emax) := b_ops prec emax L lit.
Lemma float_eq_ok : eq_ok (fun x : binary_float prec emax => is_nan x = false).
Proof.
  assert (E : forall x y : binary_float prec emax, req x y = Beqb x y) by reflexivity.
  assert (N : forall x y : binary_float prec emax, Beqb x y = true -> is_nan x = false /\ is_nan y = false).
  { intros x y H. unfold Beqb, SpecFloat.SFeqb in H. destruct x, y; try discriminate; split; reflexivity. }
  assert (V : forall x y : binary_float prec emax, is_nan x = false -> is_nan y = false -> (Beqb x y = true <-> ev prec emax x = ev prec emax y)).
  { intros x y Hx Hy. pose proof (ev_compare prec emax x y Hx Hy) as C. unfold Bcompare in C. unfold Beqb, SpecFloat.SFeqb. rewrite C.
    destruct (Rcompare_spec (ev prec emax x) (ev prec emax y)); split; intro; try discriminate; try reflexivity; lra. }
  repeat apply conj.
  - intros x y. rewrite !E. destruct (Beqb x y) eqn:A, (Beqb y x) eqn:B; try reflexivity.
    + destruct (N _ _ A). apply V in A; auto. symmetry in A. apply V in A; auto. congruence.
    + destruct (N _ _ B). apply V in B; auto. symmetry in B. apply V in B; auto. congruence.
  - intros x y z. rewrite !E. intros A B. destruct (N _ _ A), (N _ _ B). apply V in A; auto. apply V in B; auto. apply V; auto. congruence.
  - intros x Hx. rewrite E. apply V; auto.
Qed.
End FloatEq.

(* == of spectra over binary64: an equivalence on NaN-free spectra, and componentwise *)
Theorem C71_equality (L : libm f64) : let O := f64_ops L in
  (forall a b : vspd f64, vspd_eqb a b = vspd_eqb b a)
  /\ (forall a b c : vspd f64, vspd_eqb a b = true -> vspd_eqb b c = true -> vspd_eqb a c = true)
  /\ (forall a : vspd f64, vspd_all (fun x => is_nan x = false) a -> vspd_eqb a a = true)
  /\ (forall a b : vspd f64, vspd_eqb a b = true ->
        length (v_samples a) = length (v_samples b) /\
        forall k p q, nth_error (v_samples a) k = Some p -> nth_error (v_samples b) k = Some q ->
          req (s_nm p) (s_nm q) = true /\ req (s_v p) (s_v q) = true)
  /\ (forall a b : vspd f64, vspd_eqb a b = true <->
        Forall2 (fun p q => Beqb (s_nm p) (s_nm q) = true /\ Beqb (s_v p) (s_v q) = true) (v_samples a) (v_samples b)
        /\ Beqb (sh_start (v_shape a)) (sh_start (v_shape b)) = true
        /\ Beqb (sh_end (v_shape a)) (sh_end (v_shape b)) = true
        /\ match sh_interval (v_shape a), sh_interval (v_shape b) with
           | Uniform i, Uniform j => Beqb i j = true
           | Varying, Varying => True
           | _, _ => False
           end).
Proof.
  intro O. destruct (vspd_eqb_equiv _ (float_eq_ok 53 1024 L (b_of_Q 53 1024))) as (A & B & C).
  split; [exact A|]. split; [exact B|]. split; [exact C|]. split.
  2: { intros a b. rewrite vspd_eqb_spec. unfold shape_eqb, interval_eqb. rewrite !andb_true_iff.
    destruct (sh_interval (v_shape a)), (sh_interval (v_shape b)); split; intros H; decompose [and] H; try contradiction; try discriminate; auto. }
  intros a b H. apply vspd_eqb_spec in H. destruct H as [F _].
  split; [clear - F; induction F; cbn; congruence|]. intros k p q Hp Hq. revert k p q Hp Hq.
  induction F as [|x y l m S F IH]; intros [|k] p q Hp Hq; try discriminate; cbn in Hp, Hq.
  - injection Hp as <-. injection Hq as <-. exact S.
  - eapply IH; eassumption.
Qed.
(* a NaN makes a spectrum differ from itself *)
Example C71_example (L : libm f64) : let O := f64_ops L in
  let s := fun v => Vspd [Sample (Bone : f64) v; Sample Bone Bone] (SpdShape Bone Bone Varying) in
  vspd_eqb (s Bone) (s Bone) = true /\ vspd_eqb (s B754_nan) (s B754_nan) = false /\ vspd_eqb (s (B754_zero true)) (s (B754_zero false)) = true.
Proof. repeat apply conj; reflexivity. Qed.
