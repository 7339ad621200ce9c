(* The E2022 table every 10 nm over the integers, to compute the colours of tabulated spectra exactly. *)
From Coq Require Import Reals ZArith QArith Qreals Lra Lia Bool List.
From Flocq Require Import Core.
From Verif Require Import Outcome RealOps MathModel ColorModel InterpModel VspdModel UpliftModel XReal SpecLin VspdProofs PropShape SpragueProofs PropSprague AlignProofs PropAlign LagrangeProofs WeightProofs PropWeights LinProofs XyzProofs PropDiffuser PropTables WhiteProofs PropWhite.
From Verif Require Import DataIllum DataCmf.
Import ListNotations.
Open Scope R_scope.

Definition zcontribution : Type := nat * (Z * nat).
Definition zaddc (f : list Z) (w : list Z) (x : zcontribution) : list Z := list_upd w (fst x) (fun e => (e + fst (snd x) * nth (snd (snd x)) f 0)%Z).
Definition lift (d : R) (x : zcontribution) : contribution := (fst x, (IZR (fst (snd x)) / d, snd (snd x))).
Lemma fold_lift d k (f : list Z) C : d <> 0 -> k <> 0 -> forall w, fold_left (addc (fun t => IZR (nth t f 0%Z) / k)) (map (lift d) C) (map (fun z => IZR z / (d * k)) w) = map (fun z => IZR z / (d * k)) (fold_left (zaddc f) C w).
Proof.
  intros D K. induction C as [|x C IH]; intro w; cbn [fold_left map]; [reflexivity|]. rewrite <- IH. f_equal. unfold addc, zaddc, lift. cbn [fst snd]. apply list_upd_map. intro e. rewrite plus_IZR, mult_IZR. field. split; assumption.
Qed.
Definition zcoef (r : list (list Z)) (j k : nat) : Z := nth k (nth j r []) 0%Z.
Lemma coef_lift d r j k : coef (map (map (fun q => IZR q / d)) r) j k = IZR (zcoef r j k) / d.
Proof.
  unfold coef, zcoef. change (@nil R) with (map (fun q => IZR q / d) []). rewrite map_nth. replace 0 with (IZR 0 / d) by (unfold Rdiv; ring). apply (map_nth (fun q => IZR q / d)).
Qed.
Section Contrib.
Context (I n : nat) (r3 r4 : list (list Z)).
Definition zc_first : list zcontribution := flat_map (fun j => map (fun k => (k, (zcoef r3 j k, (j + 1)%nat))) (seq 0 3)) (seq 0 (I - 1)).
Definition zc_last : list zcontribution := flat_map (fun j => map (fun k => (k, (zcoef r3 (I - 1 - j - 1) (n - k), (j + (I * (n - 1) + 1))%nat))) (rev (seq (n - 2) 3))) (seq 0 (I - 1)).
Definition zc_mid : list zcontribution := flat_map (fun j => flat_map (fun k => map (fun q => ((j + q)%nat, (zcoef r4 k q, (I * (j + 1) + 1 + k)%nat))) (seq 0 4)) (seq 0 (I - 1))) (seq 0 (n - 2)).
Definition zc_all : list zcontribution := zc_first ++ zc_last ++ zc_mid.
End Contrib.
Lemma flat_map_ext_in' {A B} (f g : A -> list B) l : (forall x, f x = g x) -> flat_map f l = flat_map g l.
Proof. intro H. induction l as [|x l IH]; [reflexivity|]. cbn. rewrite H, IH. reflexivity. Qed.
Lemma c_all_lift d I n r3 r4 : c_all I n (I * n + 1) (map (map (fun q => IZR q / d)) r3) (map (map (fun q => IZR q / d)) r4) = map (lift d) (zc_all I n r3 r4).
Proof.
  unfold c_all, zc_all. rewrite !map_app. unfold c_tail. rewrite Nat.sub_diag. cbn [seq map]. rewrite app_nil_r. f_equal; [|f_equal].
  - unfold c_first, zc_first. rewrite map_flat_map. apply flat_map_ext_in'. intro j. rewrite map_map. apply map_ext. intro k. unfold lift. cbn [fst snd]. rewrite coef_lift. reflexivity.
  - unfold c_last, zc_last. rewrite map_flat_map. apply flat_map_ext_in'. intro j. rewrite map_map. apply map_ext. intro k. unfold lift. cbn [fst snd]. rewrite coef_lift. reflexivity.
  - unfold c_mid, zc_mid. rewrite map_flat_map. apply flat_map_ext_in'. intro j. rewrite map_flat_map. apply flat_map_ext_in'. intro k. rewrite map_map. apply map_ext. intro q. unfold lift. cbn [fst snd]. rewrite coef_lift. reflexivity.
Qed.

(* row n of the two tables of coefficients, times 6000 *)
Definition zr3 (n : Z) : list Z := [30 * ((n - 10) * (n - 20)); -60 * (n * (n - 20)); 30 * (n * (n - 10))]%Z.
Definition zr4 (n : Z) : list Z := [- (n * (n - 10) * (n - 20)); 3 * ((n + 10) * (n - 10) * (n - 20)); -3 * ((n + 10) * n * (n - 20)); (n + 10) * n * (n - 10)]%Z.
Definition nines : list Z := [1; 2; 3; 4; 5; 6; 7; 8; 9]%Z.
Lemma floor10 : Zfloor 10 = 10%Z. Proof. exact (Zfloor_IZR 10). Qed.
Lemma rowpos10 k : rowpos 10 k = (INR k + 1) / 10.
Proof. unfold rowpos. rewrite floor10. change (INR (Z.to_nat 10 - 1 - 1)) with (INR 8). replace (INR 8) with 8 by (cbn; lra). field. Qed.
Lemma rows3_10 : rows3 10 = map (map (fun q => IZR q / 6000)) (map zr3 nines).
Proof. unfold rows3, nines. rewrite floor10. change (Z.to_nat 10 - 1)%nat with 9%nat. cbn [seq map]. rewrite !rowpos10. unfold lag3, zr3. cbn [INR map]. repeat rewrite ?mult_IZR, ?minus_IZR. leq; lra. Qed.
Lemma rows4_10 : rows4 10 = map (map (fun q => IZR q / 6000)) (map zr4 nines).
Proof. unfold rows4, nines. rewrite floor10. change (Z.to_nat 10 - 1)%nat with 9%nat. cbn [seq map]. rewrite !rowpos10. unfold lag4, zr4. cbn [INR map]. repeat rewrite ?opp_IZR, ?mult_IZR, ?plus_IZR, ?minus_IZR. leq; lra. Qed.

(* the table, times 6000 *)
Definition ztable (f : list Z) : list Z := fold_left (zaddc f) (zc_all 10 42 (map zr3 nines) (map zr4 nines)) (map (fun j => (6000 * nth (10 * j) f 0)%Z) (seq 0 43)).
Lemma ztable_ok k f : k <> 0 -> table 10 421 (fun t => IZR (nth t f 0%Z) / k) = map (fun z => IZR z / (6000 * k)) (ztable f).
Proof.
  intro K. unfold table. rewrite floor10. change (Z.to_nat 10) with 10%nat. change ((421 - 1) / 10)%nat with 42%nat. cbv zeta. unfold weights. rewrite rows3_10, rows4_10, (c_all_lift 6000 10 42).
  unfold ztable. rewrite <- fold_lift by (assumption || lra). f_equal. unfold base. rewrite map_map. apply map_ext. intro j. rewrite mult_IZR. field. exact K.
Qed.
Fixpoint zmul2 (l m : list Z) : list Z := match l, m with a :: l, b :: m => (a * b)%Z :: zmul2 l m | _, _ => [] end.
Lemma zmul2_nth l : forall m t, nth t (zmul2 l m) 0%Z = (nth t l 0 * nth t m 0)%Z.
Proof. induction l as [|a l IH]; intros [|b m] [|t]; cbn; try lia; try reflexivity; try apply IH. Qed.
Lemma table_ext i m f g : (forall t, f t = g t) -> table i m f = table i m g.
Proof.
  intro H. unfold table, weights. rewrite (fold_addc_ext f g) by (intros; apply H). f_equal. unfold base. apply map_ext. intro. apply H.
Qed.
Lemma ztable_prod a b l m : a <> 0 -> b <> 0 -> table 10 421 (prod (map (fun z => IZR z / a) l) (map (fun z => IZR z / b) m)) = map (fun z => IZR z / (6000 * (a * b))) (ztable (zmul2 l m)).
Proof.
  intros A B. rewrite <- ztable_ok by (apply Rmult_integral_contrapositive_currified; assumption). apply table_ext. intro t. unfold prod. rewrite !nth_scaled, zmul2_nth, mult_IZR. field. split; assumption.
Qed.

Definition zsum (l : list Z) : Z := fold_right Z.add 0%Z l.
Definition ztrim (a b : nat) (w : list Z) : list Z :=
  let n := length w in
  map (fun j => (nth j w 0 + (if Nat.eqb j a then zsum (map (fun i => nth i w 0%Z) (seq 0 a)) else 0) + (if Nat.eqb j (n - b - 1) then zsum (map (fun i => nth i w 0%Z) (seq (n - b) b)) else 0))%Z) (seq a (n - b - a)).
Lemma zsum_ok k w l : rsum (map (fun i => nth i (map (fun z => IZR z / k) w) 0) l) = IZR (zsum (map (fun i => nth i w 0%Z) l)) / k.
Proof.
  induction l as [|i l IH]; [unfold rsum; cbn; unfold Rdiv; ring|]. cbn [map]. change (rsum (?x :: ?y)) with (x + rsum y). rewrite IH, nth_scaled. unfold zsum. cbn [fold_right]. rewrite plus_IZR. unfold Rdiv. ring.
Qed.
Lemma ztrim_ok k a b w : trimw a b (map (fun z => IZR z / k) w) = map (fun z => IZR z / k) (ztrim a b w).
Proof.
  unfold trimw, ztrim. rewrite map_length, map_map. apply map_ext. intro j. unfold sumf. rewrite !zsum_ok, nth_scaled, !plus_IZR. destruct (Nat.eqb j a), (Nat.eqb j (length w - b - 1)); unfold Rdiv; ring.
Qed.

Section P.
Context {K : XConst}.
(* a spectrum of 36 samples from 380 to 730 nm *)
Lemma xyz_36 dbg fuel ill cm li lx ly lz vs iv' : (420 <= fuel)%nat -> sources ill cm li lx ly lz -> dotp li ly <> 0 -> length vs = 36%nat -> iv' = Uniform (Fin 10) ->
  let w y := Fin (100 / dotp li ly * dotp (trimw 2 5 (table 10 421 (prod li y))) vs) in
  vspd_to_xyz dbg fuel (uspd 380 730 10 vs iv') ill cm = Ret (Xyz (w lx) (w ly) (w lz)).
Proof.
  intros F S N LV -> w. rewrite (to_xyz_uniform _ _ _ _ _ _ _ _ _ 10 F S) by (reflexivity || lra). replace (Ztrunc 10) with 10%Z by (symmetry; exact (Ztrunc_IZR 10)). cbn [Z.eqb Pos.eqb]. cbv zeta.
  destruct S as (S1 & S2 & S3 & S4). pose proof (source_length _ _ S1). pose proof (source_length _ _ S2). pose proof (source_length _ _ S3). pose proof (source_length _ _ S4).
  assert (F10 : Z.to_nat (Zfloor 10) = 10%nat) by (rewrite floor10; reflexivity).
  rewrite (weighting_fin dbg fuel _ li lx ly lz 10 (even 380 10 vs) 380 730 2 5); try assumption; try lra; try reflexivity.
  - rewrite even_vals. reflexivity.
  - unfold uspd, shape. rewrite C60_trim_is_filter by (apply even_increasing; lra).
    assert (E : filter (inside 360 780) (even 380 10 vs) = even 380 10 vs).
    { assert (G : forall l s, 360 <= s -> s + INR (length l) * 10 <= 790 -> filter (inside 360 780) (even s 10 l) = even s 10 l).
      { induction l as [|v l IH]; intros s H3 H4; [reflexivity|]. rewrite even_cons. cbn [filter]. cbn [length] in H4. rewrite S_INR in H4. pose proof (pos_INR (length l)). unfold inside at 1. cbn [fst]. rewrite !Rleb_true by lra. cbn [andb]. rewrite IH by lra. reflexivity. }
      apply G; [lra|]. rewrite LV, INR_IZR_INZ. cbn [Z.of_nat Pos.of_succ_nat Pos.succ]. lra. }
    rewrite E. destruct vs as [|v0 vs]; [discriminate|]. rewrite even_cons. cbn [fst sh_interval]. do 4 f_equal.
    assert (X : forall l (d : R * R), l <> [] -> last_opt l = Some (last l d)). { induction l as [|u [|v l] IH]; intros d H3; [contradiction|reflexivity|]. exact (IH d ltac:(discriminate)). }
    assert (Y : last_opt ((380, v0) :: even (380 + 10) 10 vs) = Some (last (even (380 + 10) 10 vs) (380, v0))).
    { rewrite (X _ (380, v0)) by discriminate. f_equal. generalize (even (380 + 10) 10 vs); intros [|? ?]; reflexivity. }
    rewrite <- even_cons in Y. rewrite even_last in Y by discriminate. rewrite LV in Y. injection Y as Y. rewrite <- Y. cbn [fst]. lra.
  - symmetry. apply as_usize_int; [cbn; lra|lia].
  - rewrite F10. change (420 / 10)%nat with 42%nat. symmetry. apply as_usize_int; [rewrite !INR_IZR_INZ; cbn [Z.of_nat Pos.of_succ_nat Pos.succ]; lra|lia].
  - rewrite F10. change (420 / 10)%nat with 42%nat. lia.
Qed.

(* X, Y, Z of such a spectrum under a tabulated illuminant, as fractions *)
Definition zfold (m : positive) (ill bar : list (QArith_base.Q * QArith_base.Q)) : list Z := ztrim 2 5 (ztable (zmul2 (zint (zs m ill)) (zcmf bar))).
Definition znorm (m : positive) (ill : list (QArith_base.Q * QArith_base.Q)) : Z := zdot (zint (zs m ill)) (zcmf data_y_bar).
Lemma xyz_frac (OK : XConstOk K) dbg fuel m l e n v cm vs z d : (420 <= fuel)%nat -> exactly m (map snd l) = true -> well_formed l 300 e 5 n 0 -> 780 <= e -> (97 <= n)%nat -> vspd_table l = Ret v -> cie_1931_2_degree = Ret cm ->
  znorm m l <> 0%Z -> length vs = 36%nat -> 0 < d -> vs = map (fun z => IZR z / d) z ->
  let w bar := Fin (IZR (zdot (zfold m l bar) z) / (60 * d * IZR (znorm m l))) in
  vspd_to_xyz dbg fuel (uspd 380 730 10 vs (Uniform (Fin 10))) v cm = Ret (Xyz (w data_x_bar) (w data_y_bar) (w data_z_bar)).
Proof.
  intros F X W He N Ev Ec NZ LV D EV w.
  destruct (ill_source m l e n X W He N) as (v' & Ev' & Si). rewrite Ev in Ev'. injection Ev' as <-.
  destruct (cmf_source OK data_x_bar ltac:(cbn; tauto)) as (vx & Ex & Sx). destruct (cmf_source OK data_y_bar ltac:(cbn; tauto)) as (vy & Ey & Sy). destruct (cmf_source OK data_z_bar ltac:(cbn; tauto)) as (vz & Ez & Sz).
  unfold cie_1931_2_degree in Ec. rewrite Ex, Ey, Ez in Ec. cbn [obind] in Ec. injection Ec as <-.
  pose proof (conj Si (conj Sx (conj Sy Sz)) : sources v (Cmf vx vy vz) _ _ _ _) as S.
  assert (Pm : 0 < IZR (Z.pos m)) by (apply IZR_lt; reflexivity). set (k := 625 * (209 * IZR (Z.pos m))) in *. assert (Pk : 0 < k) by (unfold k; lra).
  assert (NN : dotp (map (fun z => IZR z / k) (zint (zs m l))) (map (fun z => IZR z / IZR 1000000000000) (zcmf data_y_bar)) = IZR (znorm m l) / (k * IZR 1000000000000)) by (apply zdot_dotp; lra).
  assert (NR : IZR (znorm m l) <> 0) by (apply IZR_neq; exact NZ).
  assert (N0 : dotp (map (fun z => IZR z / k) (zint (zs m l))) (map (fun z => IZR z / IZR 1000000000000) (zcmf data_y_bar)) <> 0) by (rewrite NN; unfold Rdiv; apply Rmult_integral_contrapositive_currified; [exact NR|apply Rinv_neq_0_compat; lra]).
  rewrite (xyz_36 dbg fuel _ _ _ _ _ _ vs _ F S N0 LV eq_refl).
  assert (E : forall bar, Fin (100 / dotp (map (fun z => IZR z / k) (zint (zs m l))) (map (fun z => IZR z / IZR 1000000000000) (zcmf data_y_bar)) * dotp (trimw 2 5 (table 10 421 (prod (map (fun z => IZR z / k) (zint (zs m l))) (map (fun z => IZR z / IZR 1000000000000) (zcmf bar))))) vs) = w bar).
  { intro bar. rewrite NN, ztable_prod, ztrim_ok, EV, zdot_dotp by (try lra; apply Rmult_integral_contrapositive_currified; lra). unfold w, zfold. f_equal. field. repeat split; try lra; exact NR. }
  rewrite !E. reflexivity.
Qed.
End P.
