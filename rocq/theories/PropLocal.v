(* C122: an interpolated value depends on six samples around it *)
From Coq Require Import Reals ZArith QArith Qreals Lra Lia Bool List.
From Verif Require Import Outcome RealOps MathModel ColorModel InterpModel XReal VspdProofs SpragueProofs PropSprague PropInterp.
Import ListNotations.

(* the spectrum with the given wavelengths and values, and its interpolation at x *)
Definition spectrum {T} (ws vs : list T) : list (sample T) := map (fun p => Sample (fst p) (snd p)) (combine ws vs).
Definition interpolated {T} {O : RealOps T} (debug : bool) (ws vs : list T) (x : T) : outcome T :=
  let! sp := sprague_new (Vspd (spectrum ws vs) (SpdShape x x Varying)) in sprague_evaluate debug sp x.
(* the two lists have the same six entries from w on *)
Definition agree {T} (w : nat) (vs vs' : list T) : Prop := forall j, (w <= j < w + 6)%nat -> nth_error vs j = nth_error vs' j.

Section G.
Context {T : Type} {O : RealOps T}.
Lemma ext_nth (l m : list T) : (forall j, nth_error l j = nth_error m j) -> l = m.
Proof.
  revert m. induction l as [|a l IH]; intros [|b m] H; [reflexivity|specialize (H 0%nat); discriminate|specialize (H 0%nat); discriminate|]. f_equal; [specialize (H 0%nat); cbn in H; congruence|]. apply IH. intro j. exact (H (S j)).
Qed.
Lemma nth_firstn n (l : list T) j : nth_error (firstn n l) j = if (j <? n)%nat then nth_error l j else None.
Proof. revert l j. induction n as [|n IH]; intros [|a l] [|j]; try reflexivity; cbn [firstn nth_error]; [destruct (S j <? S n)%nat; reflexivity|]. rewrite IH. reflexivity. Qed.
Lemma nth_skipn n (l : list T) j : nth_error (skipn n l) j = nth_error l (n + j).
Proof. revert l. induction n as [|n IH]; intros [|a l]; cbn; try reflexivity; [destruct j; reflexivity|apply IH]. Qed.
Lemma zip_six (c l : list T) : length c = 6%nat -> zip_mul c l = zip_mul c (firstn 6 l).
Proof. intro H. unfold zip_mul. rewrite combine_firstn_l, H. reflexivity. Qed.
Lemma first_six (l m : list T) : agree 0 l m -> firstn 6 l = firstn 6 m.
Proof. intro A. apply ext_nth. intro j. rewrite !nth_firstn. destruct (Nat.ltb_spec j 6); [apply A; lia|reflexivity]. Qed.
Lemma last_six (l m : list T) : (6 <= length l)%nat -> length m = length l -> agree (length l - 6) l m -> firstn 6 (rev l) = firstn 6 (rev m).
Proof.
  intros L E A. rewrite !firstn_rev, E. f_equal. apply ext_nth. intro j. rewrite !nth_skipn. destruct (Nat.ltb_spec j 6); [apply A; lia|]. transitivity (@None T); [|symmetry]; apply nth_error_None; lia.
Qed.

(* the values with two more at either end *)
Definition padded (vs : list T) : list T := [(fsum (zip_mul coeff_c0 vs) / rlitd 209.0)%num; (fsum (zip_mul coeff_c1 vs) / rlitd 209.0)%num] ++ vs
  ++ [(fsum (zip_mul (rev coeff_c2) (rev vs)) / rlitd 209.0)%num; (fsum (zip_mul (rev coeff_c3) (rev vs)) / rlitd 209.0)%num].
Lemma padded_agree vs vs' k i : (6 <= length vs)%nat -> length vs' = length vs -> (k + 2 <= length vs)%nat -> agree (Nat.min (k - 2) (length vs - 6)) vs vs' -> (k <= i <= k + 5)%nat -> nth_error (padded vs) i = nth_error (padded vs') i.
Proof.
  intros L E K A I. unfold padded. destruct i as [|[|i]].
  - assert (k = 0%nat) by lia. subst k. cbn [app nth_error]. do 3 f_equal. rewrite (zip_six coeff_c0 vs), (zip_six coeff_c0 vs'), (first_six vs vs') by (reflexivity || exact A). reflexivity.
  - replace (Nat.min (k - 2) (length vs - 6)) with 0%nat in A by lia. cbn [app nth_error]. do 3 f_equal. rewrite (zip_six coeff_c1 vs), (zip_six coeff_c1 vs'), (first_six vs vs') by (reflexivity || exact A). reflexivity.
  - cbn [app nth_error]. destruct (Nat.ltb_spec i (length vs)) as [H|H].
    + rewrite !nth_error_app1 by lia. apply A. lia.
    + rewrite !nth_error_app2 by lia. rewrite E. replace (Nat.min (k - 2) (length vs - 6)) with (length vs - 6)%nat in A by lia. pose proof (last_six vs vs' L E A) as S6.
      rewrite (zip_six (rev coeff_c2) (rev vs)), (zip_six (rev coeff_c2) (rev vs')), (zip_six (rev coeff_c3) (rev vs)), (zip_six (rev coeff_c3) (rev vs')), S6 by reflexivity. reflexivity.
Qed.
Lemma coeff_agree (r r' : list T) i : (2 <= i)%nat -> (forall j, (i - 2 <= j <= i + 3)%nat -> nth_error r j = nth_error r' j) -> coeff_a r i = coeff_a r' i.
Proof.
  intros I H. unfold coeff_a. rewrite !usize_sub_ok by lia. cbn [obind]. unfold oindex. rewrite (H (i - 2)%nat), (H (i - 1)%nat), (H i), (H (i + 1)%nat), (H (i + 2)%nat), (H (i + 3)%nat) by lia. reflexivity.
Qed.
Lemma spectrum_nm (ws vs : list T) : length vs = length ws -> map s_nm (spectrum ws vs) = ws.
Proof. revert vs. induction ws as [|w ws IH]; intros [|v vs] H; cbn in *; try reflexivity; try discriminate. f_equal. apply IH. lia. Qed.
Lemma spectrum_v (ws vs : list T) : length vs = length ws -> map s_v (spectrum ws vs) = vs.
Proof. revert vs. induction ws as [|w ws IH]; intros [|v vs] H; cbn in *; try reflexivity; try discriminate. f_equal. apply IH. lia. Qed.
Lemma new_spectrum (ws : list T) : (6 <= length ws)%nat -> exists xs, length xs = (length ws + 4)%nat /\ forall vs sh, length vs = length ws -> sprague_new (Vspd (spectrum ws vs) sh) = Ret (Sprague xs (padded vs)).
Proof.
  intro L. destruct ws as [|w0 [|w1 ws']] eqn:EW; cbn in L; try lia. rewrite <- EW in *. destruct (last_opt_some ws ltac:(rewrite EW; discriminate)) as (wl & EL).
  exists ([(w0 - (w1 - w0) * rlitd 2.0)%num; (w0 - (w1 - w0))%num] ++ ws ++ [(wl + (w1 - w0))%num; (wl + (w1 - w0) * rlitd 2.0)%num]). split; [rewrite !app_length; cbn; lia|]. intros vs sh LV.
  assert (LS : exists sl, last_opt (spectrum ws vs) = Some sl /\ s_nm sl = wl). { pose proof (last_opt_map s_nm (spectrum ws vs)) as H. rewrite (spectrum_nm ws vs LV), EL in H. destruct (last_opt (spectrum ws vs)) as [sl|]; [|discriminate]. injection H as H. exists sl. auto. }
  destruct LS as (sl & E1 & E2). destruct vs as [|v0 [|v1 vs']] eqn:EV; [rewrite EW in LV; discriminate|rewrite EW in LV; discriminate|]. rewrite <- EV in *.
  rewrite (new_shape (spectrum ws vs) sh (Sample w0 v0) (Sample w1 v1) sl) by (exact E1 || (rewrite EW, EV; reflexivity)). cbv zeta. cbn [s_nm]. rewrite E2, (spectrum_nm ws vs LV), (spectrum_v ws vs LV). reflexivity.
Qed.
End G.

(* in any arithmetic and at any x, some six consecutive samples decide the interpolated value *)
Theorem C122_six : forall (T : Type) (O : RealOps T) (debug : bool) (ws : list T) (x : T), (6 <= length ws)%nat ->
  exists w, (w + 6 <= length ws)%nat /\ forall vs vs', length vs = length ws -> length vs' = length ws -> agree w vs vs' -> interpolated debug ws vs x = interpolated debug ws vs' x.
Proof.
  intros T O debug ws x L. destruct (new_spectrum ws L) as (xs & LX & NS). destruct (sprague_index debug xs x) as [i| |] eqn:EI.
  - assert (I : (2 <= i <= length ws)%nat). { unfold sprague_index in EI. destruct (position _ xs) as [p|]; [|discriminate]. cbn [unwrap obind] in EI. rewrite LX, usize_sub_ok in EI by lia. cbn [obind] in EI. destruct p as [|p]; [destruct debug; [discriminate|]|]; injection EI as <-; lia. }
    exists (Nat.min (i - 2 - 2) (length ws - 6)). split; [lia|]. intros vs vs' LV LV' A. unfold interpolated. rewrite !NS by assumption. cbn [obind]. unfold sprague_evaluate. cbn [sp_x sp_y]. rewrite EI. cbn [obind].
    rewrite (coeff_agree (padded vs) (padded vs') i) by (try lia; intros j Hj; apply (padded_agree vs vs' (i - 2)); try lia; rewrite LV; exact A). reflexivity.
  - exists 0%nat. split; [lia|]. intros vs vs' LV LV' A. unfold interpolated. rewrite !NS by assumption. cbn [obind]. unfold sprague_evaluate. cbn [sp_x sp_y]. rewrite EI. reflexivity.
  - exists 0%nat. split; [lia|]. intros vs vs' LV LV' A. unfold interpolated. rewrite !NS by assumption. cbn [obind]. unfold sprague_evaluate. cbn [sp_x sp_y]. rewrite EI. reflexivity.
Qed.

(* in exact arithmetic: between wavelengths k and k + 1 these are samples k - 2 to k + 3, or the first or last six *)
Section X.
Context {K : XConst}.
Open Scope R_scope.
Lemma padded_fin vs : padded (Fins vs) = Fins (ext vs).
Proof.
  unfold padded. replace (rev (Fins vs)) with (Fins (rev vs)) by apply map_rev. rewrite c0_fin, c1_fin, c2_fin, c3_fin, !fsum_zip_fin. xs. rewrite !x_div by (clear; q2r; lra). replace (Q2R 209.0) with 209 by (clear; q2r; lra). unfold ext, Fins. rewrite !map_app. reflexivity.
Qed.
Lemma fins_nth l i : nth_error (Fins l) i = option_map Fin (nth_error l i). Proof. apply nth_error_map. Qed.
Lemma ext_agree vs vs' k i : (6 <= length vs)%nat -> length vs' = length vs -> (k + 2 <= length vs)%nat -> agree (Nat.min (k - 2) (length vs - 6)) vs vs' -> (k <= i <= k + 5)%nat -> nth i (ext vs) 0 = nth i (ext vs') 0.
Proof.
  intros L E KL A I. assert (LF : forall l, length (Fins l) = length l) by (intro; apply map_length). assert (H : nth_error (padded (Fins vs)) i = nth_error (padded (Fins vs')) i).
  { apply (padded_agree (Fins vs) (Fins vs') k i); rewrite ?LF; try assumption. intros j Hj. rewrite !fins_nth, (A j Hj). reflexivity. }
  rewrite !padded_fin, !fins_nth in H. destruct (nth_error (ext vs) i) as [a|] eqn:E1, (nth_error (ext vs') i) as [b|] eqn:E2; cbn in H; try discriminate.
  - injection H as ->. rewrite (nth_error_nth _ _ 0 E1), (nth_error_nth _ _ 0 E2). reflexivity.
  - apply nth_error_None in E1, E2. rewrite !nth_overflow by assumption. reflexivity.
Qed.
Lemma fin_spectrum ws vs : spectrum (Fins ws) (Fins vs) = FinSamps (combine ws vs).
Proof. revert vs. induction ws as [|w ws IH]; intros [|v vs]; try reflexivity. cbn. f_equal. apply IH. Qed.
Lemma comb_fst (ws vs : list R) : length vs = length ws -> map fst (combine ws vs) = ws.
Proof. revert vs. induction ws as [|w ws IH]; intros [|v vs] H; cbn in *; try reflexivity; try discriminate. f_equal. apply IH. lia. Qed.
Lemma comb_snd (ws vs : list R) : length vs = length ws -> map snd (combine ws vs) = vs.
Proof. revert vs. induction ws as [|w ws IH]; intros [|v vs] H; cbn in *; try reflexivity; try discriminate. f_equal. apply IH. lia. Qed.
Definition rises (ws : list R) : Prop := forall i j, (i < j < length ws)%nat -> nth i ws 0 < nth j ws 0.
Lemma rises_strictly ws vs : length vs = length ws -> rises ws -> strictly (combine ws vs).
Proof.
  revert vs. induction ws as [|w ws IH]; intros [|v vs] E H; cbn in E; try discriminate; [constructor|]. cbn [combine]. constructor; [apply IH; [lia|]; intros i j Hij; apply (H (S i) (S j)); cbn; lia|].
  apply Forall_forall. intros [a b] I. cbn [fst]. apply in_combine_l in I. destruct (In_nth _ _ 0 I) as (j & Hj & <-). apply (H 0%nat (S j)). cbn. lia.
Qed.
Lemma comb_nth ws vs k : length vs = length ws -> fst (nth k (combine ws vs) (0, 0)) = nth k ws 0.
Proof. intro E. rewrite (combine_nth ws vs k 0 0 (eq_sym E)). reflexivity. Qed.
Lemma value_at debug ws vs k x : (6 <= length ws)%nat -> rises ws -> length vs = length ws -> (S k < length ws)%nat -> nth k ws 0 <= x < nth (S k) ws 0 ->
  interpolated debug (Fins ws) (Fins vs) (Fin x) = Ret (Fin (P0 (seg (ext vs) (k + 2)) ((x - nth k ws 0) / (nth (S k) ws 0 - nth k ws 0)))).
Proof.
  intros L RI E KL X. unfold interpolated. rewrite fin_spectrum. assert (LC : length (combine ws vs) = length ws) by (rewrite combine_length; lia).
  rewrite (exact_value debug (combine ws vs) _ k x); rewrite ?LC, ?(comb_nth ws vs _ E), ?(comb_snd ws vs E); try assumption; try lra; [reflexivity|apply rises_strictly; assumption].
Qed.
Theorem C122_window : forall debug ws k x, (6 <= length ws)%nat -> rises ws -> (S k < length ws)%nat -> nth k ws 0 <= x < nth (S k) ws 0 ->
  forall vs vs', length vs = length ws -> length vs' = length ws -> agree (Nat.min (k - 2) (length ws - 6)) vs vs' ->
  exists y, interpolated debug (Fins ws) (Fins vs) (Fin x) = Ret (Fin y) /\ interpolated debug (Fins ws) (Fins vs') (Fin x) = Ret (Fin y).
Proof.
  intros debug ws k x L RI KL X vs vs' E E' A. eexists. split; [apply value_at; eassumption|]. rewrite (value_at debug ws vs' k x) by assumption.
  assert (H : forall i, (k <= i <= k + 5)%nat -> nth i (ext vs') 0 = nth i (ext vs) 0) by (intros i Hi; symmetry; apply (ext_agree vs vs' k i); try lia; try assumption; rewrite E; assumption). replace (seg (ext vs') (k + 2)) with (seg (ext vs) (k + 2)); [reflexivity|]. unfold seg. rewrite !H by lia. reflexivity.
Qed.
(* changing one sample changes nothing more than three intervals away from it, away from the ends *)
Theorem C122_one_sample : forall debug ws k x j, (6 <= length ws)%nat -> rises ws -> (2 <= k)%nat -> (k + 4 <= length ws)%nat -> nth k ws 0 <= x < nth (S k) ws 0 -> (j + 2 < k)%nat \/ (k + 3 < j)%nat ->
  forall vs vs', length vs = length ws -> length vs' = length ws -> (forall i, i <> j -> nth_error vs i = nth_error vs' i) ->
  exists y, interpolated debug (Fins ws) (Fins vs) (Fin x) = Ret (Fin y) /\ interpolated debug (Fins ws) (Fins vs') (Fin x) = Ret (Fin y).
Proof.
  intros debug ws k x j L RI K2 KL X J vs vs' E E' A. apply (C122_window debug ws k x L RI ltac:(lia) X vs vs' E E'). intros i Hi. apply A. lia.
Qed.
End X.

(* the window cannot be made smaller: the sample three places on changes the value *)
Example C122_example : forall {K : XConst}, let ws := map INR (seq 0 9) in
  (forall debug, interpolated debug (Fins ws) (Fins [0; 0; 0; 0; 0; 0; 0; 0; 24]%R) (Fin 3.5) = interpolated debug (Fins ws) (Fins [0; 0; 0; 0; 0; 0; 0; 0; 0]%R) (Fin 3.5)) /\
  (forall debug, interpolated debug (Fins ws) (Fins [0; 0; 0; 0; 0; 0; 24; 0; 0]%R) (Fin 3.5) <> interpolated debug (Fins ws) (Fins [0; 0; 0; 0; 0; 0; 0; 0; 0]%R) (Fin 3.5)).
Proof.
  intros K ws. assert (RI : rises ws). { intros i j Hij. unfold ws in *. rewrite map_length, seq_length in Hij. assert (N : forall i, (i < 9)%nat -> nth i (map INR (seq 0 9)) 0%R = INR i) by (intros q Hq; rewrite (nth_indep _ 0%R (INR 0)) by (rewrite map_length, seq_length; lia); rewrite map_nth, seq_nth by lia; reflexivity). rewrite !N by lia. apply lt_INR. lia. }
  assert (X : (nth 3 ws 0 <= 3.5 < nth 4 ws 0)%R) by (unfold ws; cbn; lra).
  split; intro debug.
  - destruct (C122_one_sample debug ws 3 3.5%R 8 ltac:(cbn; lia) RI ltac:(lia) ltac:(cbn; lia) X ltac:(right; lia) [0; 0; 0; 0; 0; 0; 0; 0; 24]%R [0; 0; 0; 0; 0; 0; 0; 0; 0]%R eq_refl eq_refl) as (y & -> & ->); [|reflexivity].
    intros i Hi. destruct i as [|[|[|[|[|[|[|[|[|i]]]]]]]]]; try reflexivity. contradiction.
  - rewrite !(value_at debug ws _ 3 3.5%R) by (exact RI || exact X || (cbn; lia) || reflexivity). intros [= H]. revert H. unfold seg, seg6, ext, ws. cbn. intro H. lra.
Qed.
