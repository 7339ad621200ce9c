(* C56-C59: interpolate, extrapolate, align, and what shape() says afterwards *)
From Coq Require Import Reals ZArith QArith Qreals Lra Lia List Bool.
From Flocq Require Import Core.
From Verif Require Import Outcome RealOps MathModel ColorModel InterpModel VspdModel XReal SpecLin VspdProofs SpragueProofs AlignProofs PropShape PropSprague.
Import ListNotations.
Open Scope R_scope.

Section P.
Context {K : XConst}.

(* a spectrum with value vals_k at s + k h that says it ends at e *)
Definition uspd (s e h : R) (vals : list R) (iv : interval xr) : vspd xr :=
  Vspd (FinSamps (even s h vals)) (SpdShape (Fin s) (Fin e) iv).

Lemma sv_at debug s h vals sh x : 0 < h -> (2 <= length vals)%nat -> s - 2 * h <= x < s + (INR (length vals) + 1) * h ->
  sprague_at debug s h vals sh (Fin x) = Ret (Fin (sv s h vals x)).
Proof. intros. rewrite sprague_at_in by assumption. reflexivity. Qed.
Lemma sv_knot s h vals k : 0 < h -> (2 <= length vals)%nat -> (k < length vals)%nat -> sv s h vals (s + INR k * h) = nth k vals 0.
Proof.
  intros Hh L Hk. pose proof (pos_INR k). assert (INR k <= INR (length vals)) by (apply le_INR; lia).
  pose proof (C51_through_samples true s h vals (shape 0 0 0) k Hh L Hk) as E. rewrite sv_at in E by (assumption || nra).
  injection E as E. exact E.
Qed.

(* ---- C56 ---- *)
Theorem C56_interpolate debug s e h vals iv a b i : 0 < h -> (2 <= length vals)%nat ->
  e < s + (INR (length vals) + 1) * h -> 0 < i -> Rmax a s <= Rmin b e -> countable (Rmax a s) (Rmin b e) i ->
  exists r xs, vspd_interpolate debug (uspd s e h vals iv) (shape a b i) = Ret r
    /\ v_shape r = shape (Rmax a s) (Rmin b e) i
    /\ shape_iter (v_shape r) = Ret (Fins xs) /\ v_wavelengths r = Fins xs
    /\ (forall k x, nth_error xs k = Some x -> exists v, nth_error (v_samples r) k = Some (Sample (Fin x) (Fin v))
          /\ sprague_at debug s h vals (SpdShape (Fin s) (Fin e) iv) (Fin x) = Ret (Fin v)).
Proof.
  intros Hh L He Hi Hab Hc. eexists _, _. unfold uspd. rewrite interpolate_even by assumption. split; [reflexivity|].
  cbn [v_shape]. split; [reflexivity|]. rewrite shape_iter_fin by assumption. split; [reflexivity|].
  unfold v_wavelengths. cbn [v_samples]. rewrite nms_fin, at_fst. split; [reflexivity|].
  intros k x Hx. exists (sv s h vals x). split.
  - unfold FinSamps, at_. rewrite !nth_error_map, Hx. reflexivity.
  - apply nth_error_In in Hx. apply grid_steps_in in Hx; try assumption. pose proof (Rmax_r a s). pose proof (Rmin_r b e).
    apply sv_at; [exact Hh|exact L|lra].
Qed.
(* ranges that miss each other by an interval or more *)
Theorem C56_disjoint_panics debug s e h vals iv a b i : (2 <= length vals)%nat -> 0 < i -> Rmin b e <= Rmax a s - i ->
  vspd_interpolate debug (uspd s e h vals iv) (shape a b i) = Panic.
Proof.
  intros L Hi H. unfold vspd_interpolate, uspd. rewrite sprague_new_even by exact L. cbn [obind].
  unfold shape. cbn [v_start v_end v_shape sh_start sh_end sh_interval]. rewrite x_max, x_min.
  change (SpdShape (Fin (Rmax a s)) (Fin (Rmin b e)) (Uniform (Fin i))) with (shape (Rmax a s) (Rmin b e) i).
  rewrite shape_iter_panic by assumption. reflexivity.
Qed.
Example C56_example debug : exists r, vspd_interpolate debug (uspd 400 450 10 [1; 4; 2; 8; 5; 7] (Uniform (Fin 10))) (shape 395 432 20) = Ret r
  /\ v_samples r = [Sample (Fin 400) (Fin 1); Sample (Fin 420) (Fin 2)] /\ v_shape r = shape 400 432 20.
Proof.
  assert (A : Rmax 395 400 = 400) by (apply Rmax_right; lra). assert (B : Rmin 432 450 = 432) by (apply Rmin_left; lra).
  unfold uspd. rewrite interpolate_even; rewrite ?A, ?B; cbn [length INR]; try lra; try lia; [|unfold countable; lra].
  eexists. split; [reflexivity|]. split; [|reflexivity]. cbn [v_samples].
  rewrite (steps_unique 400 432 20 1) by (cbn; lra). unfold grid. cbn [Nat.add seq map].
  unfold at_. cbn [map FinSamps].
  replace (400 + INR 0 * 20) with (400 + INR 0 * 10) by (cbn; lra). replace (400 + INR 1 * 20) with (400 + INR 2 * 10) by (cbn; lra).
  unfold FinSamps. cbn [map]. rewrite !sv_knot by (cbn; lra || lia). unfold FinSamp. cbn [fst snd nth INR]. leq; lra.
Qed.

(* ---- C57 ---- *)
Theorem C57_extrapolate s e iv a b j i v0 (l : list (R * R)) xl vl : 0 < i -> s <= e + i -> pad_interval iv j = Some (Fin i) ->
  first_opt l = Some (s, v0) -> last_opt l = Some (xl, vl) ->
  exists N np nq,
    (forall fuel, (N <= fuel)%nat ->
      vspd_extrapolate fuel (Vspd (FinSamps l) (SpdShape (Fin s) (Fin e) iv)) (SpdShape (Fin a) (Fin b) j)
      = Ret (Vspd (FinSamps (map (fun x => (x, v0)) (grid (Rmin s a) i np) ++ l ++ map (fun x => (x, vl)) (grid (e + i) i nq)))
                  (shape a b i)))
    /\ (forall x, In x (grid (Rmin s a) i np) -> Rmin s a <= x < s) /\ s <= Rmin s a + INR np * i
    /\ (forall x, In x (grid (e + i) i nq) -> e + i <= x <= Rmax e b) /\ Rmax e b < e + i + INR nq * i.
Proof.
  intros Hi Hse Hiv Hf Hla. exists (Nat.max (npre s a i) (npost e b i)), (npre s a i), (npost e b i).
  destruct (npre_spec s a i Hi) as [A1 A2]. destruct (npost_spec e b i Hi) as [B1 B2].
  split; [|split; [|split; [|split]]]; try assumption.
  - intros fuel Hfu. apply (extrapolate_fin fuel s e iv a b j i v0 l vl); try assumption; try lia. rewrite Hla. reflexivity.
  - intros x Hx. apply in_grid in Hx. destruct Hx as (k & Hk & ->). specialize (A2 k Hk). pose proof (pos_INR k). nra.
  - intros x Hx. apply in_grid in Hx. destruct Hx as (k & Hk & ->). specialize (B2 k Hk). pose proof (pos_INR k). nra.
Qed.
(* a non-positive interval makes the first loop run forever (no amount of fuel suffices) *)
Theorem C57_needs_positive_interval fuel s e iv a b j i v0 (l : list (R * R)) : i <= 0 -> a < s -> pad_interval iv j = Some (Fin i) ->
  first_opt l = Some (s, v0) ->
  vspd_extrapolate fuel (Vspd (FinSamps l) (SpdShape (Fin s) (Fin e) iv)) (SpdShape (Fin a) (Fin b) j) = OutOfFuel.
Proof.
  intros Hi Has Hiv Hf. unfold vspd_extrapolate. cbn [v_start v_end v_interval v_shape sh_start sh_end sh_interval v_samples].
  assert (EI : (match iv with Uniform v => Ret v | Varying => match j with Uniform v => Ret v | Varying => Panic end end) = Ret (Fin i)).
  { destruct iv, j; cbn in Hiv; try discriminate; injection Hiv as ->; reflexivity. }
  rewrite EI. cbn [obind]. rewrite x_min, Rmin_right by lra.
  assert (D : forall k, a + INR k * i < s) by (intro k; pose proof (pos_INR k); nra).
  rewrite while_forever; [reflexivity| |].
  - intro k. rewrite x_lt. apply Rltb_true, D.
  - intro k. exists v0. unfold extrapolator_evaluate, v_first, v_last. cbn [v_samples]. destruct l as [|p l]; [discriminate|]. cbn in Hf. injection Hf as ->.
    unfold FinSamps. destruct (last_opt_some (map FinSamp ((s, v0) :: l)) ltac:(discriminate)) as [q Q]. rewrite Q. cbn [map first_opt unwrap obind FinSamp s_nm s_v fst snd].
    rewrite x_lt, (Rltb_true _ _ (D k)). reflexivity.
Qed.
Theorem C57_varying_panics fuel s e a b (l : list (sample xr)) :
  vspd_extrapolate fuel (Vspd l (SpdShape s e Varying)) (SpdShape a b Varying) = Panic.
Proof. reflexivity. Qed.
Lemma npre_is s a i n : 0 < i -> s <= Rmin s a + INR n * i -> Rmin s a + (INR n - 1) * i < s -> npre s a i = n.
Proof.
  intros Hi A B. unfold npre. assert (E : (s - Rmin s a) / i * i = s - Rmin s a) by (field; lra). rewrite (Zceil_imp (Z.of_nat n)); [apply Nat2Z.id|].
  rewrite minus_IZR, <- INR_IZR_INZ. split.
  - apply (Rmult_lt_reg_r i); [exact Hi|lra].
  - apply (Rmult_le_reg_r i); [exact Hi|lra].
Qed.
Example C57_example : vspd_extrapolate 5 (Vspd (FinSamps [(400, 3); (410, 4)]) (shape 400 410 10)) (shape 380 425 1)
  = Ret (Vspd (FinSamps [(380, 3); (390, 3); (400, 3); (410, 4); (420, 4)]) (shape 380 425 10)).
Proof.
  assert (A : npre 400 380 10 = 2%nat) by (apply npre_is; rewrite ?Rmin_right by lra; cbn; lra).
  assert (B : npost 410 425 10 = 1%nat) by (apply steps_unique; rewrite ?Rmax_right by lra; cbn; lra).
  unfold shape at 1 2. rewrite (extrapolate_fin 5 400 410 (Uniform (Fin 10)) 380 425 _ 10 3 _ 4); rewrite ?A, ?B; try lra; try lia; try reflexivity.
  do 2 f_equal. rewrite Rmin_right by lra. unfold grid, at_. cbn [seq map app FinSamps INR]. unfold FinSamps, FinSamp. cbn [map fst snd]. leq; lra.
Qed.

(* ---- C58 ---- *)
(* Partial: proved when the ends of the spectrum that lie inside the requested range are on the
   requested grid; false otherwise (C58_off_grid_refuted). *)
Theorem C58_align_on_grid_partial debug s e h vals iv a b i : 0 < h -> (2 <= length vals)%nat -> s <= e ->
  e < s + (INR (length vals) + 1) * h -> 0 < i -> Rmax a s <= Rmin b e -> countable a b i ->
  (s <= a \/ on_grid a i s) -> (b <= e \/ on_grid a i e) ->
  exists N, forall fuel, (N <= fuel)%nat ->
    exists r xs, vspd_align debug fuel (uspd s e h vals iv) (shape a b i) = Ret r
      /\ shape_iter (shape a b i) = Ret (Fins xs) /\ v_wavelengths r = Fins xs /\ v_shape r = shape a b i
      (* values: interpolated inside, those of the ends outside *)
      /\ (forall k x, nth_error xs k = Some x -> exists v, nth_error (v_samples r) k = Some (Sample (Fin x) (Fin v))
            /\ sprague_at debug s h vals (SpdShape (Fin s) (Fin e) iv) (Fin (Rmax s (Rmin x e))) = Ret (Fin v)).
Proof.
  intros Hh L Hse He Hi Hab Hc Hs Hb. exists (Nat.max (npre (Rmax a s) a i) (npost (Rmin b e) b i)). intros fuel Hf.
  assert (Hc' : countable (Rmax a s) (Rmin b e) i).
  { unfold countable in *. pose proof (Rmax_l a s). pose proof (Rmin_l b e). eapply Rle_lt_trans; [|exact Hc].
    apply Rmult_le_compat_r; [left; apply Rinv_0_lt_compat, Hi|lra]. }
  assert (Ab : a <= b) by (pose proof (Rmax_l a s); pose proof (Rmin_l b e); lra).
  unfold uspd. rewrite align_even by (assumption || lia). rewrite aligned_on_grid by assumption.
  eexists _, _. split; [reflexivity|]. rewrite shape_iter_fin by assumption. split; [reflexivity|].
  unfold v_wavelengths. cbn [v_samples v_shape]. rewrite nms_fin, at_fst. split; [reflexivity|]. split; [reflexivity|].
  intros k x Hx. exists (av s e h vals x). split.
  - unfold FinSamps, at_. rewrite !nth_error_map, Hx. reflexivity.
  - unfold av. apply sv_at; [exact Hh|exact L|]. pose proof (Rmax_l s (Rmin x e)). pose proof (Rmin_r x e).
    assert (Rmax s (Rmin x e) <= e) by (apply Rmax_lub; assumption). lra.
Qed.
(* a spectrum over 0 .. 50 step 10 aligned to -5 .. 45 step 10 gets samples at -5, 0, 10, ... *)
Theorem C58_off_grid_refuted debug : exists spd r xs, 
  spd = uspd 0 50 10 [1; 1; 1; 1; 1; 1] (Uniform (Fin 10))
  /\ vspd_align debug 3 spd (shape (-5) 45 10) = Ret r
  /\ shape_iter (shape (-5) 45 10) = Ret (Fins xs)
  /\ nth_error xs 1 = Some 5 /\ nth_error (v_wavelengths r) 1 = Some (Fin 0).
Proof.
  eexists _, _, _. split; [reflexivity|].
  assert (A : Rmax (-5) 0 = 0) by (apply Rmax_right; lra). assert (B : Rmin 45 50 = 45) by (apply Rmin_left; lra).
  assert (N1 : npre 0 (-5) 10 = 1%nat) by (apply npre_is; rewrite ?Rmin_right by lra; cbn; lra).
  assert (N2 : npost 45 45 10 = 0%nat) by (apply steps_unique; rewrite ?Rmax_left by lra; cbn; lra).
  unfold uspd. rewrite align_even; rewrite ?A, ?B, ?N1, ?N2; cbn [length INR]; try lra; try lia; [|unfold countable; lra].
  split; [reflexivity|]. rewrite shape_iter_fin by (unfold countable; lra). split; [reflexivity|].
  rewrite (steps_unique (-5) 45 10 5) by (cbn; lra). split.
  - cbn. f_equal. lra.
  - unfold v_wavelengths. cbn [v_samples]. rewrite nms_fin. unfold aligned. rewrite A, B, N1, N2. unfold mid_n. rewrite A, B, (steps_unique 0 45 10 4) by (cbn; lra).
    cbn. f_equal. f_equal. lra.
Qed.
Example C58_example debug : exists N, forall fuel, (N <= fuel)%nat -> exists r,
  vspd_align debug fuel (uspd 400 450 10 [1; 4; 2; 8; 5; 7] (Uniform (Fin 10))) (shape 390 460 10) = Ret r
  /\ v_values r = Fins [1; 1; 4; 2; 8; 5; 7; 7].
Proof.
  exists 2%nat. intros fuel Hf.
  assert (A : Rmax 390 400 = 400) by (apply Rmax_right; lra). assert (B : Rmin 460 450 = 450) by (apply Rmin_right; lra).
  assert (N1 : npre 400 390 10 = 1%nat) by (apply npre_is; rewrite ?Rmin_right by lra; cbn; lra).
  assert (N2 : npost 450 460 10 = 1%nat) by (apply steps_unique; rewrite ?Rmax_right by lra; cbn; lra).
  unfold uspd. rewrite align_even; rewrite ?A, ?B, ?N1, ?N2; cbn [length INR]; try lra; try lia; [|unfold countable; lra].
  eexists. split; [reflexivity|]. unfold v_values. cbn [v_samples]. rewrite vals_fin. f_equal. unfold aligned, mid_n.
  rewrite A, B, N1, N2, (steps_unique 400 450 10 5) by (cbn; lra). unfold grid, at_.
  set (vs := [1; 4; 2; 8; 5; 7]). change (sv 400 10 vs 400) with (sv 400 10 vs 400).
  assert (V : forall k, (k < 6)%nat -> sv 400 10 vs (400 + INR k * 10) = nth k vs 0) by (intros k Hk; apply sv_knot; [lra|cbn; lia|cbn; lia]).
  assert (V0 : sv 400 10 vs 400 = 1) by (replace 400 with (400 + INR 0 * 10) at 2 by (cbn; lra); rewrite V by lia; reflexivity).
  cbn [Nat.add Nat.sub seq map app snd]. rewrite !V by lia. rewrite V0. reflexivity.
Qed.

(* ---- C59 ---- *)
(* start() is the first wavelength and the last one does not exceed end() *)
Definition describes (r : vspd xr) : Prop :=
  exists l x0 xl e, v_samples r = FinSamps l /\ option_map fst (first_opt l) = Some x0 /\ option_map fst (last_opt l) = Some xl
    /\ v_start r = Fin x0 /\ v_end r = Fin e /\ xl <= e.
Lemma first_opt_app {A} (l m : list A) : l <> [] -> first_opt (l ++ m) = first_opt l.
Proof. destruct l; [contradiction|reflexivity]. Qed.
Lemma last_opt_app2 {A} (l m : list A) : m <> [] -> last_opt (l ++ m) = last_opt m.
Proof.
  intro H. induction l as [|a l IH]; [reflexivity|]. cbn [app]. destruct (l ++ m) eqn:E; [apply app_eq_nil in E; tauto|]. exact IH.
Qed.
Lemma first_grid f s i n : (0 < n)%nat -> option_map fst (first_opt (at_ f (grid s i n))) = Some s.
Proof. intro H. destruct n; [lia|]. rewrite grid_S. reflexivity. Qed.
Lemma last_grid f s i n : (0 < n)%nat -> option_map fst (last_opt (at_ f (grid s i n))) = Some (s + INR (n - 1) * i).
Proof.
  intro H. unfold at_. rewrite last_opt_map, (last_opt_nth _ 0) by (intro E; apply (f_equal (@length R)) in E; rewrite grid_length in E; cbn in E; lia).
  rewrite grid_length, grid_nth by lia. reflexivity.
Qed.
Lemma at_nonempty f s i n : (0 < n)%nat -> at_ f (grid s i n) <> [].
Proof. intros H E. apply (f_equal (@length _)) in E. rewrite at_length, grid_length in E. cbn in E. lia. Qed.

(* Partial: every operation but extrapolate, for which it is false (C59_extrapolate_refuted). *)
Theorem C59_shape_describes_partial :
  (forall (l : list (R * R)) r, vspd_new (FinSamps l) = Ret r -> describes r)
  /\ (forall s e i v r, 0 < i -> s <= e -> countable s e i -> vspd_constant (shape s e i) (Fin v) = Ret r -> describes r)
  /\ (forall s e i vals r, 0 < i -> countable s e i -> vspd_from_values (shape s e i) (Fins vals) = Ret r -> describes r)
  /\ (forall (l : list (R * R)) sh a b j r, increasing l -> vspd_trim (Vspd (FinSamps l) sh) (SpdShape (Fin a) (Fin b) j) = Ret r -> describes r)
  /\ (forall debug s e h vals iv a b i r, 0 < h -> (2 <= length vals)%nat -> e < s + (INR (length vals) + 1) * h -> 0 < i ->
        Rmax a s <= Rmin b e -> countable (Rmax a s) (Rmin b e) i ->
        vspd_interpolate debug (uspd s e h vals iv) (shape a b i) = Ret r -> describes r)
  /\ (forall debug fuel s e h vals iv a b i r, 0 < h -> (2 <= length vals)%nat -> e < s + (INR (length vals) + 1) * h -> 0 < i ->
        Rmax a s <= Rmin b e -> countable (Rmax a s) (Rmin b e) i ->
        (npre (Rmax a s) a i <= fuel)%nat -> (npost (Rmin b e) b i <= fuel)%nat ->
        vspd_align debug fuel (uspd s e h vals iv) (shape a b i) = Ret r -> describes r).
Proof.
  split; [|split; [|split; [|split; [|split]]]].
  - intros l r H. destruct l as [|p l]; [discriminate|]. destruct (C48_new_shape_partial (FinSamps (p :: l)) (FinSamp (0, 0))) as [Pa A].
    destruct (le_lt_dec 2 (length (FinSamps (p :: l)))) as [L|L]; [|rewrite (proj2 Pa L) in H; discriminate].
    destruct (A L) as (r' & E & Es & E0 & E1 & _). rewrite H in E. injection E as <-.
    exists (p :: l), (fst p), (fst (nth (length (p :: l) - 1) (p :: l) (0, 0))), (fst (nth (length (p :: l) - 1) (p :: l) (0, 0))).
    rewrite (last_opt_nth (p :: l) (0, 0)) by discriminate. repeat apply conj; try reflexivity; try assumption; try lra.
    rewrite E1. unfold FinSamps. rewrite map_length, map_nth. reflexivity.
  - intros s e i v r Hi Hse Hc H. unfold vspd_constant in H. rewrite shape_iter_fin in H by assumption. cbn [obind] in H.
    destruct (Nat.ltb _ _) in H; [discriminate|]. injection H as <-. destruct (steps_spec s e i Hi Hse) as [S1 _].
    exists (at_ (fun _ => v) (grid s i (steps s e i + 1))), s, (s + INR (steps s e i) * i), e. rewrite first_grid, last_grid by lia.
    replace (steps s e i + 1 - 1)%nat with (steps s e i) by lia. repeat apply conj; try reflexivity; [|exact S1].
    cbn [v_samples]. unfold Fins, FinSamps, at_. rewrite !map_map. reflexivity.
  - intros s e i vals r Hi Hc H. rewrite C50_from_values in H by assumption. destruct (Rle_dec s e) as [Hse|]; [|discriminate].
    destruct (Nat.leb_spec 2 (length vals)) as [L|]; [|discriminate]. destruct (Nat.eqb_spec (length vals) (Z.to_nat (Zfloor ((e - s) / i)) + 1)) as [E|]; [|discriminate].
    injection H as <-. destruct (steps_spec s e i Hi Hse) as [S1 _]. unfold steps in S1.
    assert (Nv : vals <> []) by (intros ->; cbn in L; lia).
    exists (even s i vals), s, (s + INR (length vals - 1) * i), e. rewrite even_last by exact Nv.
    repeat apply conj; try reflexivity.
    + destruct vals; [contradiction|]. rewrite even_cons. reflexivity.
    + replace (length vals - 1)%nat with (Z.to_nat (Zfloor ((e - s) / i))) by lia. exact S1.
  - intros l sh a b j r Hinc H. rewrite C60_trim_is_filter in H by exact Hinc. destruct (filter (inside a b) l) as [|p rest]; [discriminate|].
    injection H as <-. exists (p :: rest), (fst p), (fst (last rest p)), (fst (last rest p)). repeat apply conj; try reflexivity; [|lra].
    replace (last_opt (p :: rest)) with (Some (last rest p)); [reflexivity|]. clear. revert p. induction rest as [|q rest IH]; intro p; [reflexivity|].
    change (last_opt (p :: q :: rest)) with (last_opt (q :: rest)). rewrite <- IH. f_equal. clear. revert p q. induction rest as [|r rest IH]; intros; [reflexivity|].
    cbn [last]. destruct rest; [reflexivity|apply IH].
  - intros debug s e h vals iv a b i r Hh L He Hi Hab Hc H. unfold uspd in H. rewrite interpolate_even in H by assumption. injection H as <-.
    destruct (steps_spec (Rmax a s) (Rmin b e) i Hi Hab) as [S1 _].
    eexists _, (Rmax a s), (Rmax a s + INR (steps (Rmax a s) (Rmin b e) i) * i), (Rmin b e). split; [reflexivity|].
    rewrite first_grid, last_grid by lia. replace (steps (Rmax a s) (Rmin b e) i + 1 - 1)%nat with (steps (Rmax a s) (Rmin b e) i) by lia.
    repeat apply conj; try reflexivity. exact S1.
  - intros debug fuel s e h vals iv a b i r Hh L He Hi Hab Hc F1 F2 H. unfold uspd in H. rewrite align_even in H by assumption. injection H as <-.
    destruct (steps_spec (Rmax a s) (Rmin b e) i Hi Hab) as [S1 _]. pose proof (Rmin_l b e) as Mb.
    assert (Hm : (0 < mid_n s e a b i)%nat) by (unfold mid_n; lia).
    assert (Fi : option_map fst (first_opt (aligned s e h vals a b i)) = Some a).
    { unfold aligned. destruct (Nat.eq_dec (npre (Rmax a s) a i) 0) as [Z|Z].
      - rewrite Z. change (grid a i 0) with (@nil R). change (at_ (fun _ => sv s h vals (Rmax a s)) []) with (@nil (R * R)). rewrite app_nil_l.
        rewrite first_opt_app by (apply at_nonempty, Hm). rewrite first_grid by exact Hm. f_equal.
        destruct (npre_spec (Rmax a s) a i Hi) as [A _]. rewrite Z in A. cbn [INR] in A. rewrite Rmin_right in A by apply Rmax_l. pose proof (Rmax_l a s). lra.
      - rewrite first_opt_app by (apply at_nonempty; lia). apply first_grid. lia. }
    assert (La : exists xl, option_map fst (last_opt (aligned s e h vals a b i)) = Some xl /\ xl <= b).
    { unfold aligned. destruct (Nat.eq_dec (npost (Rmin b e) b i) 0) as [Z|Z].
      - rewrite Z. change (grid (Rmin b e + i) i 0) with (@nil R). unfold at_ at 3. cbn [map]. rewrite app_nil_r. rewrite last_opt_app2 by (apply at_nonempty, Hm). rewrite last_grid by exact Hm.
        eexists. split; [reflexivity|]. unfold mid_n. replace (steps (Rmax a s) (Rmin b e) i + 1 - 1)%nat with (steps (Rmax a s) (Rmin b e) i) by lia. lra.
      - rewrite !last_opt_app2; [|apply at_nonempty; lia|intro E; apply app_eq_nil in E; destruct E as [_ E]; revert E; apply at_nonempty; lia].
        rewrite last_grid by lia. eexists. split; [reflexivity|]. destruct (npost_spec (Rmin b e) b i Hi) as [_ B].
        specialize (B (npost (Rmin b e) b i - 1)%nat ltac:(lia)). rewrite Rmax_right in B by exact Mb. exact B. }
    destruct La as (xl & La & Lb). exists (aligned s e h vals a b i), a, xl, b. repeat apply conj; try reflexivity; assumption.
Qed.
(* extrapolate to a range inside the spectrum keeps all samples but reports the smaller range *)
Theorem C59_extrapolate_refuted : exists r, vspd_extrapolate 0 (Vspd (FinSamps [(400, 3); (410, 4); (420, 5)]) (shape 400 420 10)) (shape 410 415 10) = Ret r
  /\ v_samples r = FinSamps [(400, 3); (410, 4); (420, 5)] /\ v_start r = Fin 410 /\ v_end r = Fin 415 /\ ~ describes r.
Proof.
  assert (A : npre 400 410 10 = 0%nat) by (apply npre_is; rewrite ?Rmin_left by lra; cbn; lra).
  assert (B : npost 420 415 10 = 0%nat) by (apply steps_unique; rewrite ?Rmax_left by lra; cbn; lra).
  eexists. split.
  - unfold shape. rewrite (extrapolate_fin 0 400 420 (Uniform (Fin 10)) 410 415 _ 10 3 _ 5); rewrite ?A, ?B; try lra; try lia; try reflexivity.
  - split; [reflexivity|]. split; [reflexivity|]. split; [reflexivity|].
    intros (l & x0 & xl & e & E1 & E2 & E3 & E4 & E5 & E6). cbn in E4, E5. injection E4 as <-. injection E5 as <-.
    cbn [v_samples] in E1. unfold grid, at_ in E1. cbn [seq map app] in E1. unfold FinSamps in E1. cbn [map] in E1.
    destruct l as [|[x v] l]; [discriminate|]. cbn [map] in E1. injection E1 as X V E1. cbn in E2. injection E2 as ->. lra.
Qed.
End P.
