(* C123: align (vspd.rs) onto a grid the spectrum already has, in exact arithmetic *)
From Coq Require Import Reals ZArith QArith Qreals Lra Lia List Bool.
From Flocq Require Import Core.
From Verif Require Import Outcome RealOps MathModel ColorModel InterpModel VspdModel XReal SpecLin VspdProofs SpragueProofs AlignProofs PropShape PropSprague PropAlign.
Import ListNotations.
Open Scope R_scope.

Section P.
Context {K : XConst}.

Lemma npre_same s i : 0 < i -> npre s s i = 0%nat.
Proof.
  intro Hi. destruct (npre_spec s s i Hi) as [_ B]. destruct (npre s s i) eqn:E; [reflexivity|].
  specialize (B 0%nat ltac:(lia)). rewrite Rmin_left in B by lra. cbn in B. lra.
Qed.
Lemma npost_same e i : 0 < i -> npost e e i = 0%nat.
Proof.
  intro Hi. destruct (npost_spec e e i Hi) as [_ B]. destruct (npost e e i) eqn:E; [reflexivity|].
  specialize (B 0%nat ltac:(lia)). rewrite Rmax_left in B by lra. cbn in B. lra.
Qed.

(* a range inside the spectrum: no sample is held, so any fuel will do *)
Lemma align_inside debug fuel s e h vals iv a b i : 0 < h -> (2 <= length vals)%nat ->
  e < s + (INR (length vals) + 1) * h -> 0 < i -> s <= a -> a <= b -> b <= e -> countable a b i ->
  vspd_align debug fuel (uspd s e h vals iv) (shape a b i)
  = Ret (Vspd (FinSamps (at_ (av s e h vals) (grid a i (steps a b i + 1)))) (shape a b i)).
Proof.
  intros Hh L He Hi Sa Ab Be Hc.
  assert (A : Rmax a s = a) by (apply Rmax_left; exact Sa). assert (B : Rmin b e = b) by (apply Rmin_left; exact Be).
  assert (P0 : npre (Rmax a s) a i = 0%nat) by (rewrite A; apply npre_same, Hi).
  assert (P1 : npost (Rmin b e) b i = 0%nat) by (rewrite B; apply npost_same, Hi).
  unfold uspd. rewrite align_even; try assumption; try (rewrite A, B; assumption); try (rewrite ?P0, ?P1; lia).
  rewrite aligned_on_grid; try assumption; try (rewrite A, B; assumption); try (left; assumption); try lra. reflexivity.
Qed.

(* asking for every m-th of its own sample points, from the p-th to the q-th: those samples come back,
   untouched *)
Theorem C123_subsample debug fuel s e h vals iv p q m : 0 < h -> (2 <= length vals)%nat ->
  (p <= q < length vals)%nat -> (0 < m)%nat -> s + INR q * h <= e < s + (INR (length vals) + 1) * h ->
  INR (length vals) < 18446744073709551616 ->
  vspd_align debug fuel (uspd s e h vals iv) (shape (s + INR p * h) (s + INR q * h) (INR m * h))
  = Ret (Vspd (FinSamps (map (fun j => (s + INR (p + j * m) * h, nth (p + j * m) vals 0)) (seq 0 ((q - p) / m + 1))))
              (shape (s + INR p * h) (s + INR q * h) (INR m * h))).
Proof.
  intros Hh L Hpq Hm He Hc. pose proof (pos_INR p) as P0. assert (Pq : INR p <= INR q) by (apply le_INR; lia).
  assert (M1 : 1 <= INR m) by (change 1 with (INR 1); apply le_INR; lia).
  assert (Hi : 0 < INR m * h) by nra.
  assert (Hq : INR q < INR (length vals)) by (apply lt_INR; lia).
  assert (Hn : (m * ((q - p) / m) <= q - p < m * ((q - p) / m) + m)%nat).
  { pose proof (Nat.div_mod (q - p) m ltac:(lia)). pose proof (Nat.mod_upper_bound (q - p) m ltac:(lia)). lia. }
  assert (St : steps (s + INR p * h) (s + INR q * h) (INR m * h) = ((q - p) / m)%nat).
  { apply steps_unique; [exact Hi|]. set (d := ((q - p) / m)%nat) in *. 
    assert (E1 : INR (p + m * d) <= INR q) by (apply le_INR; lia).
    assert (E2 : INR q < INR (p + m * S d)) by (apply lt_INR; rewrite Nat.mul_succ_r; lia).
    rewrite plus_INR, mult_INR in E1, E2. split; nra. }
  assert (Ab : s + INR p * h <= s + INR q * h) by nra. assert (Sa : s <= s + INR p * h) by nra.
  destruct He as [He1 He2].
  rewrite (align_inside debug fuel s e h vals iv _ _ _ Hh L He2 Hi Sa Ab He1).
  - do 2 f_equal. f_equal. rewrite St. unfold at_, grid. rewrite map_map. apply map_ext_in. intros j Hj. apply in_seq in Hj.
    assert (J : (p + j * m <= q)%nat) by nia.
    assert (EJ : s + INR p * h + INR j * (INR m * h) = s + INR (p + j * m) * h) by (rewrite plus_INR, mult_INR; ring).
    rewrite EJ. f_equal. unfold av. pose proof (pos_INR (p + j * m)) as J0. pose proof (le_INR _ _ J) as J1.
    rewrite Rmin_left by nra. rewrite Rmax_right by nra. apply sv_knot; [exact Hh|exact L|lia].
  - unfold countable. replace ((s + INR q * h - (s + INR p * h)) / (INR m * h)) with ((INR q - INR p) / INR m) by (field; lra).
    apply Rle_lt_trans with (INR q - INR p); [|lra]. apply Rmult_le_reg_r with (INR m); [lra|].
    unfold Rdiv. rewrite Rmult_assoc, Rinv_l by lra. nra.
Qed.

(* asking for its own shape: the spectrum comes back as it was *)
Theorem C123_own_shape debug fuel s e h vals : 0 < h -> (2 <= length vals)%nat ->
  s + INR (length vals - 1) * h <= e < s + INR (length vals) * h -> countable s e h ->
  let spd := uspd s e h vals (Uniform (Fin h)) in
  vspd_align debug fuel spd (v_shape spd) = Ret spd.
Proof.
  intros Hh L He Hc spd. change (v_shape spd) with (shape s e h). unfold spd.
  pose proof (pos_INR (length vals - 1)) as P0.
  assert (St : steps s e h = (length vals - 1)%nat).
  { apply steps_unique; [exact Hh|]. replace (S (length vals - 1)) with (length vals) by lia. exact He. }
  destruct He as [He1 He2]. assert (S0 : s <= s) by lra. assert (E0 : e <= e) by lra. assert (Se : s <= e) by nra.
  assert (He3 : e < s + (INR (length vals) + 1) * h) by nra.
  rewrite (align_inside debug fuel s e h vals _ _ _ _ Hh L He3 Hh S0 Se E0 Hc).
  unfold uspd. do 2 f_equal. f_equal. rewrite St. replace (length vals - 1 + 1)%nat with (length vals) by lia.
  apply (nth_ext _ _ (0, 0) (0, 0)).
  - rewrite at_length, grid_length, even_length. reflexivity.
  - intros k Hk. rewrite at_length, grid_length in Hk. rewrite even_nth by exact Hk.
    unfold at_. rewrite (nth_indep _ (0, 0) ((fun x => (x, av s e h vals x)) 0)) by (rewrite map_length, grid_length; exact Hk).
    rewrite (map_nth (fun x => (x, av s e h vals x))), grid_nth by exact Hk. f_equal. unfold av.
    pose proof (pos_INR k). assert (INR k <= INR (length vals - 1)) by (apply le_INR; lia).
    rewrite Rmin_left by nra. rewrite Rmax_right by nra. apply sv_knot; assumption.
Qed.

(* aligning twice to one shape is aligning once, whenever the ends of the spectrum that lie inside the
   range are on its grid and the range holds two points *)
Theorem C123_again debug s e h vals iv a b i : 0 < h -> (2 <= length vals)%nat -> s <= e ->
  e < s + (INR (length vals) + 1) * h -> 0 < i -> Rmax a s <= Rmin b e -> countable a b i ->
  (s <= a \/ on_grid a i s) -> (b <= e \/ on_grid a i e) -> a + i <= b ->
  exists N r, forall fuel, (N <= fuel)%nat ->
    vspd_align debug fuel (uspd s e h vals iv) (shape a b i) = Ret r
    /\ forall fuel', vspd_align debug fuel' r (shape a b i) = Ret r.
Proof.
  intros Hh L Hse He Hi Hab Hc Hs Hb Two. exists (Nat.max (npre (Rmax a s) a i) (npost (Rmin b e) b i)).
  set (n := (steps a b i + 1)%nat). set (ws := map (av s e h vals) (grid a i n)).
  assert (Lw : length ws = n) by (unfold ws; rewrite map_length, grid_length; reflexivity).
  exists (uspd a b i ws (Uniform (Fin i))). intros fuel Hf.
  assert (Hc' : countable (Rmax a s) (Rmin b e) i).
  { unfold countable in *. pose proof (Rmax_l a s). pose proof (Rmin_l b e). eapply Rle_lt_trans; [|exact Hc].
    apply Rmult_le_compat_r; [left; apply Rinv_0_lt_compat, Hi|lra]. }
  assert (Ab : a <= b) by (pose proof (Rmax_l a s); pose proof (Rmin_l b e); lra).
  destruct (steps_spec a b i Hi Ab) as [S1 S2].
  assert (N2 : (2 <= n)%nat).
  { unfold n. destruct (steps a b i) as [|k]; [|lia]. cbn in S2. lra. }
  split.
  - unfold uspd at 1. rewrite align_even by (assumption || lia). rewrite aligned_on_grid by assumption.
    unfold uspd. do 2 f_equal. f_equal. fold n. unfold even. rewrite Lw. unfold at_, ws.
    generalize (grid a i n). intro l. induction l as [|x l IH]; [reflexivity|]. cbn [map combine]. rewrite IH. reflexivity.
  - intro fuel'. apply (C123_own_shape debug fuel' a b i ws); [exact Hi|lia| |exact Hc].
    rewrite Lw. unfold n. replace (steps a b i + 1 - 1)%nat with (steps a b i) by lia.
    replace (steps a b i + 1)%nat with (S (steps a b i)) by lia. split; assumption.
Qed.

(* six samples 10 nm apart: every second of the last five *)
Example C123_example debug fuel :
  vspd_align debug fuel (uspd 400 450 10 [1; 4; 2; 8; 5; 7] (Uniform (Fin 10))) (shape 410 450 20)
  = Ret (Vspd (FinSamps [(410, 4); (430, 8); (450, 7)]) (shape 410 450 20)).
Proof.
  pose proof (C123_subsample debug fuel 400 450 10 [1; 4; 2; 8; 5; 7] (Uniform (Fin 10)) 1 5 2 ltac:(lra)
    ltac:(cbn; lia) ltac:(cbn; lia) ltac:(lia) ltac:(cbn; lra) ltac:(cbn; lra)) as H.
  replace (400 + INR 1 * 10) with 410 in H by (cbn; lra). replace (400 + INR 5 * 10) with 450 in H by (cbn; lra).
  replace (INR 2 * 10) with 20 in H by (cbn; lra). rewrite H. do 3 f_equal.
  cbn [Nat.sub Nat.div Nat.divmod fst Nat.add Nat.mul seq map nth].
  replace (400 + INR 3 * 10) with 430 by (cbn; lra).
  replace (400 + INR 1 * 10) with 410 by (cbn; lra). replace (400 + INR 5 * 10) with 450 by (cbn; lra). reflexivity.
Qed.
End P.
