(* C64, C67: the perfect diffuser, and which spectra are interpolated before integrating *)
From Coq Require Import Reals ZArith QArith Qreals Lra Lia List Bool.
From Flocq Require Import Core.
From Verif Require Import Outcome RealOps MathModel ColorModel InterpModel VspdModel XReal SpecLin VspdProofs PropShape SpragueProofs PropSprague AlignProofs PropAlign LagrangeProofs WeightProofs PropWeights LinProofs XyzProofs PropXyz.
Import ListNotations.
Open Scope R_scope.

Section P.
Context {K : XConst}.

(* an evenly spaced spectrum that covers, or meets on a sample, both ends of 360..780 nm; vals are
   its interpolated values at 360, 361, .., 780 *)
Definition source (v : vspd xr) (vals : list R) : Prop :=
  exists s e h w iv, v = uspd s e h w iv /\ alignable s e h w 360 780 1 /\ vals = resampled s e h w 360 780 1.
Definition sources (ill : vspd xr) (cm : cmf xr) (li lx ly lz : list R) : Prop :=
  source ill li /\ source (x_bar cm) lx /\ source (y_bar cm) ly /\ source (z_bar cm) lz.
Definition nm1 (l : list R) : vspd xr := uspd 360 780 1 l (Uniform (Fin 1)).

Lemma source_length v l : source v l -> length l = 421%nat.
Proof. intros (s & e & h & w & iv & _ & _ & ->). rewrite resampled_length, steps1. reflexivity. Qed.
Lemma source_align debug fuel v l : source v l -> (420 <= fuel)%nat -> vspd_align debug fuel v (shape 360 780 1) = Ret (nm1 l).
Proof. intros (s & e & h & w & iv & -> & A & ->) F. apply align_uspd; [exact A|rewrite steps1; exact F]. Qed.
Lemma s1_shape : shape_new (rlitd 360.0) (rlitd 780.0) (rlitd 1.0) = shape 360 780 1.
Proof. unfold shape_new, shape. rewrite !x_litd. leq; clear; q2r; lra. Qed.

Lemma to_xyz_uniform debug fuel spd ill cm li lx ly lz i : (420 <= fuel)%nat -> sources ill cm li lx ly lz -> v_interval spd = Uniform (Fin i) -> 0 <= i < 18446744073709551616 ->
  vspd_to_xyz debug fuel spd ill cm =
    let c := Cmf (nm1 lx) (nm1 ly) (nm1 lz) in
    if Z.eqb (Ztrunc i) 5 then spd_to_xyz_integration debug fuel spd (nm1 li) c (shape 360 780 5)
    else if Z.eqb (Ztrunc i) 10 then spd_to_xyz_weighting debug fuel spd (nm1 li) c
    else spd_to_xyz_integration debug fuel spd (nm1 li) c (shape 360 780 1).
Proof.
  intros F (Hi & Hx & Hy & Hz) Ei Ri. unfold vspd_to_xyz. rewrite s1_shape, (source_align _ _ _ _ Hi F). cbn [obind]. unfold cmf_align.
  rewrite (source_align _ _ _ _ Hx F), (source_align _ _ _ _ Hy F), (source_align _ _ _ _ Hz F). cbn [obind]. rewrite Ei.
  rewrite to_usize_fin by lra. cbn [unwrap obind]. rewrite e308.
  destruct (Z.eqb_spec (Ztrunc i) 1) as [->|]; [reflexivity|]. destruct (Z.eqb_spec (Ztrunc i) 5); [|reflexivity].
  f_equal. unfold shape. cbn [sh_start sh_end]. rewrite x_litd. leq. clear; q2r; lra.
Qed.

Definition xyz_of (s i x y z : list R) : xyz xr :=
  Xyz (Fin (100 * dot3 s i x / dotp i y)) (Fin (100 * dot3 s i y / dotp i y)) (Fin (100 * dot3 s i z / dotp i y)).
Lemma integration1 debug fuel spd li lx ly lz l : (420 <= fuel)%nat -> length li = 421%nat -> length lx = 421%nat -> length ly = 421%nat -> length lz = 421%nat ->
  vspd_align debug fuel spd (shape 360 780 1) = Ret (nm1 l) -> dotp li ly <> 0 ->
  spd_to_xyz_integration debug fuel spd (nm1 li) (Cmf (nm1 lx) (nm1 ly) (nm1 lz)) (shape 360 780 1) = Ret (xyz_of l li lx ly lz).
Proof.
  intros F Li Lx Ly Lz E N. eapply integrate_fin; [lra|apply align1; eassumption|apply align1; eassumption|apply align1; eassumption|apply align1; eassumption|exact E|apply uspd_vals..|exact N].
Qed.
Lemma integration5 debug fuel spd li lx ly lz l : (420 <= fuel)%nat -> length li = 421%nat -> length lx = 421%nat -> length ly = 421%nat -> length lz = 421%nat ->
  vspd_align debug fuel spd (shape 360 780 5) = Ret (uspd 360 780 5 l (Uniform (Fin 5))) -> dotp (every5 li) (every5 ly) <> 0 ->
  spd_to_xyz_integration debug fuel spd (nm1 li) (Cmf (nm1 lx) (nm1 ly) (nm1 lz)) (shape 360 780 5) = Ret (xyz_of l (every5 li) (every5 lx) (every5 ly) (every5 lz)).
Proof.
  intros F Li Lx Ly Lz E N. eapply integrate_fin; [lra|apply align5; [lia|eassumption]|apply align5; [lia|eassumption]|apply align5; [lia|eassumption]|apply align5; [lia|eassumption]|exact E|apply uspd_vals..|exact N].
Qed.

(* the weighted path, once the spectrum has been cut to 360..780 *)
Lemma weighting_fin debug fuel spd li lx ly lz i t ts te a b : length li = 421%nat -> length lx = 421%nat -> length ly = 421%nat -> length lz = 421%nat ->
  3 <= i <= 200 -> v_interval spd = Uniform (Fin i) ->
  vspd_trim spd (shape 360 780 1) = Ret (Vspd (FinSamps t) (SpdShape (Fin ts) (Fin te) (Uniform (Fin i)))) ->
  let n := (420 / Z.to_nat (Zfloor i))%nat in
  a = as_usize (Fin ((ts - 360) / i)) -> b = as_usize (Fin ((360 + i * INR n - te) / i)) -> (a + b <= n)%nat -> dotp li ly <> 0 ->
  let w y := Fin (100 / dotp li ly * dotp (trimw a b (table i 421 (prod li y))) (map snd t)) in
  spd_to_xyz_weighting debug fuel spd (nm1 li) (Cmf (nm1 lx) (nm1 ly) (nm1 lz)) = Ret (Xyz (w lx) (w ly) (w lz)).
Proof.
  intros Li Lx Ly Lz Hi Ei Et n Ea Eb Hab N w. unfold spd_to_xyz_weighting. rewrite Ei. unfold cmf_shape. cbn [x_bar v_shape nm1 uspd].
  assert (SE : shape_eqb (SpdShape (Fin 360) (Fin 780) (Uniform (Fin 1))) (SpdShape (Fin 360) (Fin 780) (Uniform (Fin 1))) = true).
  { unfold shape_eqb, interval_eqb. cbn [sh_start sh_end sh_interval]. rewrite !x_eq, !Reqb_true by reflexivity. reflexivity. }
  rewrite SE. cbn [negb obind]. fold (shape 360 780 1). rewrite Et. cbn [obind].
  pose proof (floor_nat_ge i 3 ltac:(cbn; lra)) as N3.
  assert (N200 : (Z.to_nat (Zfloor i) <= 200)%nat). { assert (IZR (Zfloor i) <= 200) by (pose proof (Zfloor_lb i); lra). apply le_IZR in H. lia. }
  assert (T : rsum (table i 421 (prod li ly)) = dotp li ly) by (rewrite table_sum by (lra || lia); rewrite <- Li; apply sumf_prod; congruence).
  pose proof (fun C I sh => factors_fin C I sh i 421 li lx ly lz ltac:(lra) ltac:(lra) ltac:(lia)) as FF.
  rewrite FF; [|reflexivity|reflexivity|reflexivity|apply uspd_vals|apply uspd_vals|apply uspd_vals|apply uspd_vals|assumption|assumption|assumption|assumption|rewrite T; exact N].
  clear FF. cbn [obind]. rewrite T. assert (TL : forall f, length (table i 421 f) = (n + 1)%nat) by (intro; rewrite table_length; reflexivity).
  assert (FL : forall l, length (Fins l) = length l) by (intro; unfold Fins; apply map_length).
  rewrite FL, map_length, TL, usize_sub_ok by lia. cbn [obind sh_start shape]. rewrite Nat.add_sub. unfold of_usize. rewrite x_of_Z, <- INR_IZR_INZ, x_mul, x_add.
  unfold adjust_weighting_factors_astme308. cbn [shape_new sh_interval sh_start sh_end v_shape]. rewrite !x_sub, !x_div by lra. rewrite <- Ea, <- Eb.
  rewrite !adjust_channel_fin by (rewrite map_length, TL; lia). cbn [obind]. unfold v_values. cbn [v_samples]. rewrite vals_fin.
  f_equal. assert (D : forall f, fsum (zip_mul (Fins (trimw a b (map (Rmult (100 / dotp li ly)) f))) (Fins (map snd t))) = Fin (100 / dotp li ly * dotp (trimw a b f) (map snd t))).
  { intro f. rewrite trimw_scale, zip_mul_fin, fsum_fin, <- dotp_scale. f_equal. generalize (map (Rmult (100 / dotp li ly)) (trimw a b f)). generalize (map snd t). clear.
    intros m l. revert m. induction l as [|x l IH]; intros [|y m]; try reflexivity. cbn. unfold rsum in IH. rewrite <- IH. reflexivity. }
  unfold w. f_equal; apply D.
Qed.

(* cutting an evenly spaced spectrum leaves an evenly spaced spectrum *)
Lemma filter_upper A B h vals : 0 < h -> forall s, A <= s -> exists q, filter (inside A B) (even s h vals) = even s h (firstn q vals).
Proof.
  intro Hh. induction vals as [|v vals IH]; intros s Hs; [exists 0%nat; reflexivity|]. rewrite even_cons. cbn [filter]. unfold inside at 1. cbn [fst]. rewrite (Rleb_true A s) by exact Hs. cbn [andb].
  destruct (IH (s + h) ltac:(lra)) as [q E]. destruct (Rleb_spec s B) as [L|L].
  - exists (Datatypes.S q). cbn [firstn]. rewrite even_cons, E. reflexivity.
  - exists 0%nat. cbn [firstn]. clear E IH. assert (G : forall l x, B < x -> filter (inside A B) (even x h l) = []).
    { induction l as [|u l IH]; intros x Hx; [reflexivity|]. rewrite even_cons. cbn [filter]. unfold inside at 1. cbn [fst]. rewrite (Rleb_false x B) by exact Hx. rewrite andb_false_r. apply IH. lra. }
    rewrite G by lra. reflexivity.
Qed.
Lemma filter_even A B h vals : 0 < h -> forall s, exists p q, filter (inside A B) (even s h vals) = even (s + INR p * h) h (firstn q (skipn p vals)).
Proof.
  intro Hh. induction vals as [|v vals IH]; intros s; [exists 0%nat, 0%nat; reflexivity|]. destruct (Rle_dec A s) as [L|L].
  - destruct (filter_upper A B h (v :: vals) Hh s L) as [q E]. exists 0%nat, q. rewrite E. cbn [INR skipn]. f_equal. ring.
  - rewrite even_cons. cbn [filter]. unfold inside at 1. cbn [fst]. rewrite (Rleb_false A s) by lra. cbn [andb]. destruct (IH (s + h)) as (p & q & E). exists (Datatypes.S p), q. rewrite E, S_INR. cbn [skipn]. f_equal. ring.
Qed.

Lemma even_ge h vals : 0 < h -> forall s t, t <= s -> Forall (fun p => t <= fst p) (even s h vals).
Proof. intro Hh. induction vals as [|v vals IH]; intros s t H; [constructor|]. rewrite even_cons. constructor; [exact H|]. apply IH. lra. Qed.
Lemma even_increasing s h vals : 0 < h -> increasing (even s h vals).
Proof.
  intro Hh. revert s. induction vals as [|v vals IH]; intro s; [constructor|]. rewrite even_cons. constructor; [apply IH|]. apply even_ge; [exact Hh|cbn; lra].
Qed.
Lemma nth_repeat_lt {A} (v d : A) n k : (k < n)%nat -> nth k (repeat v n) d = v.
Proof. revert k. induction n as [|n IH]; intros [|k] H; cbn; try lia; [reflexivity|]. apply IH. lia. Qed.
Lemma as_usize_int x k : x = INR k -> (k < 1000)%nat -> as_usize (Fin x) = k.
Proof.
  intros -> H. assert (INR k < 1000) by (replace 1000 with (INR 1000) by (rewrite INR_IZR_INZ; reflexivity); apply lt_INR, H). pose proof (pos_INR k).
  rewrite as_usize_fin by lra. rewrite INR_IZR_INZ, Zfloor_IZR. apply Nat2Z.id.
Qed.
Lemma firstn_repeat {A} (v : A) q : forall n, firstn q (repeat v n) = repeat v (Nat.min q n).
Proof. induction q as [|q IH]; intros [|n]; cbn; rewrite ?IH; reflexivity. Qed.
Lemma skipn_repeat {A} (v : A) q : forall n, skipn q (repeat v n) = repeat v (n - q).
Proof. induction q as [|q IH]; intros [|n]; cbn; rewrite ?IH; reflexivity. Qed.
Lemma dotp_repeat w : forall n, (length w <= n)%nat -> dotp w (repeat 1 n) = rsum w.
Proof. unfold rsum. induction w as [|x w IH]; intros [|n] H; cbn in *; try lia; try reflexivity. rewrite IH by lia. ring. Qed.

(* ---- C64 ---- *)
(* a 10 nm constant spectrum whose samples lie on 360, 370, .. *)
Lemma diffuser10 debug fuel li lx ly lz n z e : length li = 421%nat -> length lx = 421%nat -> length ly = 421%nat -> length lz = 421%nat -> dotp li ly <> 0 ->
  (exists k, (k < n)%nat /\ 360 <= 360 + 10 * IZR z + INR k * 10 <= 780) ->
  spd_to_xyz_weighting debug fuel (uspd (360 + 10 * IZR z) e 10 (repeat 1 n) (Uniform (Fin 10))) (nm1 li) (Cmf (nm1 lx) (nm1 ly) (nm1 lz))
  = Ret (Xyz (Fin (100 * dotp li lx / dotp li ly)) (Fin 100) (Fin (100 * dotp li lz / dotp li ly))).
Proof.
  intros Li Lx Ly Lz N (k & Hk & Rk). set (s := 360 + 10 * IZR z) in *.
  destruct (filter_even 360 780 10 (repeat 1 n) ltac:(lra) s) as (p & q & E). rewrite skipn_repeat, firstn_repeat in E. set (m := Nat.min q (n - p)) in E.
  assert (I : In (s + INR k * 10, 1) (filter (inside 360 780) (even s 10 (repeat 1 n)))).
  { apply filter_In. split.
    - assert (X : nth k (even s 10 (repeat 1 n)) (0, 0) = (s + INR k * 10, 1)) by (rewrite even_nth by (rewrite repeat_length; exact Hk); rewrite nth_repeat_lt by exact Hk; reflexivity).
      rewrite <- X. apply nth_In. rewrite even_length, repeat_length. exact Hk.
    - unfold inside. cbn [fst]. rewrite !Rleb_true by lra. reflexivity. }
  assert (M : (1 <= m)%nat) by (rewrite E in I; destruct m; [destruct I|lia]).
  assert (IN : forall j, (j < m)%nat -> 360 <= s + INR p * 10 + INR j * 10 <= 780).
  { intros j Hj. assert (X : In (s + INR p * 10 + INR j * 10, 1) (filter (inside 360 780) (even s 10 (repeat 1 n)))).
    { rewrite E. assert (X : nth j (even (s + INR p * 10) 10 (repeat 1 m)) (0, 0) = (s + INR p * 10 + INR j * 10, 1)) by (rewrite even_nth by (rewrite repeat_length; exact Hj); rewrite nth_repeat_lt by exact Hj; reflexivity).
      rewrite <- X. apply nth_In. rewrite even_length, repeat_length. exact Hj. }
    apply filter_In in X. destruct X as [_ X]. unfold inside in X. cbn [fst] in X. apply andb_true_iff in X. destruct X as [X Y]. destruct (Rleb_spec 360 (s + INR p * 10 + INR j * 10)), (Rleb_spec (s + INR p * 10 + INR j * 10) 780); try discriminate. lra. }
  pose proof (IN 0%nat ltac:(lia)) as I0. pose proof (IN (m - 1)%nat ltac:(lia)) as I1. cbn [INR] in I0.
  set (a := Z.to_nat (z + Z.of_nat p)). assert (Ha : (0 <= z + Z.of_nat p)%Z). { apply le_IZR. rewrite plus_IZR, <- INR_IZR_INZ. unfold s in I0. lra. }
  assert (EA : s + INR p * 10 = 360 + 10 * INR a). { unfold a. rewrite (INR_IZR_INZ (Z.to_nat _)), Z2Nat.id by exact Ha. rewrite plus_IZR, <- INR_IZR_INZ. unfold s. ring. }
  assert (B : (a + (m - 1) <= 42)%nat). { apply INR_le. rewrite plus_INR, (INR_IZR_INZ 42). change (IZR (Z.of_nat 42)) with 42. lra. }
  set (b := (42 - a - (m - 1))%nat). assert (F10 : Z.to_nat (Zfloor 10) = 10%nat) by (rewrite (Zfloor_IZR 10); reflexivity).
  assert (EB : INR b = 42 - INR a - INR (m - 1)). { unfold b. rewrite !minus_INR by lia. rewrite (INR_IZR_INZ 42). change (IZR (Z.of_nat 42)) with 42. ring. }
  rewrite (weighting_fin debug fuel _ li lx ly lz 10 (even (360 + 10 * INR a) 10 (repeat 1 m)) (360 + 10 * INR a) (360 + 10 * INR a + INR (m - 1) * 10) a b); try assumption; try lra; try reflexivity.
  - rewrite even_vals. assert (D : forall y, length y = 421%nat -> dotp (trimw a b (table 10 421 (prod li y))) (repeat 1 m) = dotp li y).
    { intros y L. assert (TL : length (table 10 421 (prod li y)) = 43%nat) by (rewrite table_length, F10; reflexivity).
      rewrite dotp_repeat by (rewrite trimw_length, TL; unfold b; lia). rewrite trimw_sum by (rewrite TL; unfold b; lia).
      rewrite table_sum by (rewrite ?F10; lra || lia). rewrite <- Li. apply sumf_prod. congruence. }
    rewrite !D by assumption. f_equal. f_equal; f_equal; field; exact N.
  - unfold uspd, shape. rewrite C60_trim_is_filter by (apply even_increasing; lra). rewrite E, EA. cbn [sh_interval].
    destruct m as [|m']; [lia|]. cbn [repeat]. rewrite even_cons. cbn [fst]. f_equal. f_equal. f_equal. f_equal.
    assert (X : forall l (d : R * R), l <> [] -> last_opt l = Some (last l d)). { induction l as [|u [|v l] IH]; intros d H; [contradiction|reflexivity|]. exact (IH d ltac:(discriminate)). }
    assert (Y : last_opt ((360 + 10 * INR a, 1) :: even (360 + 10 * INR a + 10) 10 (repeat 1 m')) = Some (last (even (360 + 10 * INR a + 10) 10 (repeat 1 m')) (360 + 10 * INR a, 1))).
    { rewrite (X _ (360 + 10 * INR a, 1)) by discriminate. f_equal. generalize (even (360 + 10 * INR a + 10) 10 (repeat 1 m')); intros [|? ?]; reflexivity. }
    rewrite <- even_cons in Y. change (1 :: repeat 1 m') with (repeat 1 (Datatypes.S m')) in Y. rewrite even_last in Y by discriminate. rewrite repeat_length in Y. injection Y as Y. rewrite <- Y. reflexivity.
  - symmetry. apply as_usize_int; [field|lia].
  - rewrite F10. change (420 / 10)%nat with 42%nat. symmetry. apply as_usize_int; [rewrite EB, (INR_IZR_INZ 42); change (IZR (Z.of_nat 42)) with 42; field|unfold b; lia].
  - rewrite F10. change (420 / 10)%nat with 42%nat. unfold b. lia.
Qed.

(* Y = 100 (and X, Z those of the illuminant) for a constant-1 spectrum of step 1, 5 or 10 *)
Theorem C64_perfect_diffuser_partial debug fuel ill cm li lx ly lz n : (420 <= fuel)%nat -> sources ill cm li lx ly lz ->
  (forall s e, (6 <= n)%nat -> alignable s e 1 (repeat 1 n) 360 780 1 -> dotp li ly <> 0 ->
     vspd_to_xyz debug fuel (uspd s e 1 (repeat 1 n) (Uniform (Fin 1))) ill cm
     = Ret (Xyz (Fin (100 * dotp li lx / dotp li ly)) (Fin 100) (Fin (100 * dotp li lz / dotp li ly))))
  /\ (forall s e, (6 <= n)%nat -> alignable s e 5 (repeat 1 n) 360 780 5 -> dotp (every5 li) (every5 ly) <> 0 ->
     vspd_to_xyz debug fuel (uspd s e 5 (repeat 1 n) (Uniform (Fin 5))) ill cm
     = Ret (Xyz (Fin (100 * dotp (every5 li) (every5 lx) / dotp (every5 li) (every5 ly))) (Fin 100) (Fin (100 * dotp (every5 li) (every5 lz) / dotp (every5 li) (every5 ly)))))
  /\ (forall z e, (exists k, (k < n)%nat /\ 360 <= 360 + 10 * IZR z + INR k * 10 <= 780) -> dotp li ly <> 0 ->
     vspd_to_xyz debug fuel (uspd (360 + 10 * IZR z) e 10 (repeat 1 n) (Uniform (Fin 10))) ill cm
     = Ret (Xyz (Fin (100 * dotp li lx / dotp li ly)) (Fin 100) (Fin (100 * dotp li lz / dotp li ly)))).
Proof.
  intros F S. pose proof S as (Si & Sx & Sy & Sz). apply source_length in Si, Sx, Sy, Sz.
  assert (TI : forall k, Ztrunc (IZR k) = k) by (intro; apply Ztrunc_IZR).
  repeat apply conj; intros.
  - rewrite (to_xyz_uniform _ _ _ _ _ _ _ _ _ 1 F S) by (reflexivity || lra). rewrite (TI 1%Z). cbn [Z.eqb Pos.eqb]. cbv zeta.
    rewrite (integration1 _ _ _ _ _ _ _ (repeat 1 421)); try assumption.
    + unfold xyz_of. rewrite !dot3_ones by lia. f_equal. f_equal. f_equal. field. assumption.
    + rewrite align_uspd by (assumption || (rewrite steps1; lia)). rewrite resampled_const by (assumption || lra). rewrite steps1. reflexivity.
  - rewrite (to_xyz_uniform _ _ _ _ _ _ _ _ _ 5 F S) by (reflexivity || lra). rewrite (TI 5%Z). cbn [Z.eqb Pos.eqb]. cbv zeta.
    rewrite (integration5 _ _ _ _ _ _ _ (repeat 1 85)); try assumption.
    + unfold xyz_of. rewrite !dot3_ones by (unfold every5; rewrite map_length, seq_length; lia). f_equal. f_equal. f_equal. field. assumption.
    + rewrite align_uspd by (assumption || (rewrite steps5; lia)). rewrite resampled_const by (assumption || lra). rewrite steps5. reflexivity.
  - rewrite (to_xyz_uniform _ _ _ _ _ _ _ _ _ 10 F S) by (reflexivity || lra). rewrite (TI 10%Z). cbn [Z.eqb Pos.eqb]. cbv zeta. apply diffuser10; assumption.
Qed.

(* any 421 values are a source *)
Lemma nm1_source l : length l = 421%nat -> source (nm1 l) l.
Proof.
  intro L. exists 360, 780, 1, l, (Uniform (Fin 1)). split; [reflexivity|]. split.
  - apply on_own_grid; rewrite ?steps1; try lra; try lia. apply count1.
  - symmetry. apply resampled_own; rewrite ?steps1; try lra; lia.
Qed.
(* one at index j, zero elsewhere *)
Definition spike (j n : nat) : list R := map (fun k => if Nat.eqb k j then 1 else 0) (seq 0 n).
Lemma spike_length j n : length (spike j n) = n.
Proof. unfold spike. rewrite map_length. apply seq_length. Qed.
Lemma dotp_spike j y : (j < length y)%nat -> dotp (spike j (length y)) y = nth j y 0.
Proof.
  intro H. rewrite <- (sumf_prod (spike j (length y)) y) by (rewrite spike_length; reflexivity). rewrite spike_length.
  rewrite (sumf_ext _ (fun k => 0 * INR k + (if Nat.eqb k j then nth j y 0 else 0))).
  - rewrite sumf_if by lia. unfold sumf. rewrite rsum_scale. ring.
  - intros k Hk. unfold prod, spike. rewrite (nth_map_seq (fun k => if Nat.eqb k j then 1 else 0)) by lia. destruct (Nat.eqb_spec k j) as [->|]; ring.
Qed.
(* when only coarse points carry weight, the table just picks them *)
Lemma table_picks i m f : 3 <= i -> (2 * Z.to_nat (Zfloor i) + 1 <= m)%nat -> (forall t, (t mod Z.to_nat (Zfloor i) <> 0)%nat -> f t = 0) ->
  table i m f = map (fun j => f (Z.to_nat (Zfloor i) * j)%nat) (seq 0 ((m - 1) / Z.to_nat (Zfloor i) + 1)).
Proof.
  intros Hi Hm Hf. pose proof (floor_nat_ge i 3 ltac:(cbn; lra)) as N3. destruct (fine_bounds (Z.to_nat (Zfloor i)) m ltac:(lia) Hm) as (B1 & B2 & B3).
  unfold table, weights. rewrite fold_addc_zero; [reflexivity|]. intros x Hx. apply in_all in Hx; [|assumption..]. apply Hf. apply Hx; lia.
Qed.
Lemma prod_spike j y t : length y = 421%nat -> (j < 421)%nat -> prod (spike j 421) y t = if Nat.eqb t j then nth j y 0 else 0.
Proof.
  intros L H. unfold prod, spike. destruct (Nat.ltb_spec t 421) as [T|T].
  - rewrite (nth_map_seq (fun k => if Nat.eqb k j then 1 else 0)) by exact T. destruct (Nat.eqb_spec t j) as [->|]; ring.
  - rewrite (nth_overflow y) by lia. destruct (Nat.eqb_spec t j); [lia|ring].
Qed.
Lemma table_spike i j y : 3 <= i <= 200 -> length y = 421%nat -> (Z.to_nat (Zfloor i) * j < 421)%nat ->
  table i 421 (prod (spike (Z.to_nat (Zfloor i) * j) 421) y) = map (fun k => if Nat.eqb k j then nth (Z.to_nat (Zfloor i) * j) y 0 else 0) (seq 0 (420 / Z.to_nat (Zfloor i) + 1)).
Proof.
  intros Hi L H. pose proof (floor_nat_ge i 3 ltac:(cbn; lra)) as N3.
  assert (N200 : (Z.to_nat (Zfloor i) <= 200)%nat). { assert (X : IZR (Zfloor i) <= 200) by (pose proof (Zfloor_lb i); lra). apply le_IZR in X. lia. }
  rewrite table_picks by (lra || lia || (intros t Ht; rewrite prod_spike by assumption; destruct (Nat.eqb_spec t (Z.to_nat (Zfloor i) * j)) as [->|]; [|reflexivity]; rewrite Nat.mul_comm, Nat.mod_mul in Ht by lia; lia)).
  change (421 - 1)%nat with 420%nat. apply map_ext. intro k. rewrite prod_spike by assumption.
  destruct (Nat.eqb_spec k j) as [->|N]; [rewrite Nat.eqb_refl; reflexivity|]. destruct (Nat.eqb_spec (Z.to_nat (Zfloor i) * k) (Z.to_nat (Zfloor i) * j)); [nia|reflexivity].
Qed.
Lemma trimw_0 w : trimw 0 0 w = w.
Proof.
  apply nth_ext with (d := 0) (d' := 0); [rewrite trimw_length; lia|]. intros k Hk. rewrite trimw_length in Hk. unfold trimw.
  rewrite nth_indep with (d' := (fun j => nth j w 0 + (if Nat.eqb j 0 then sumf (fun j => nth j w 0) 0 0 else 0) + (if Nat.eqb j (length w - 0 - 1) then sumf (fun j => nth j w 0) (length w - 0) 0 else 0)) 0%nat) by (rewrite map_length, seq_length; lia).
  rewrite (map_nth (fun j => nth j w 0 + (if Nat.eqb j 0 then sumf (fun j => nth j w 0) 0 0 else 0) + (if Nat.eqb j (length w - 0 - 1) then sumf (fun j => nth j w 0) (length w - 0) 0 else 0))).
  rewrite seq_nth by lia. unfold sumf, rsum. cbn [seq map fold_right Nat.add]. destruct (Nat.eqb k 0), (Nat.eqb k _); ring.
Qed.
Lemma dotp_seq f g n a : dotp (map f (seq a n)) (map g (seq a n)) = sumf (fun k => f k * g k) a n.
Proof. revert a. induction n as [|n IH]; intro a; [reflexivity|]. cbn [seq map dotp]. rewrite IH, sumf_S. reflexivity. Qed.
Lemma dotp_short f m : forall n a, (m <= n)%nat -> dotp (map f (seq a n)) (repeat 1 m) = sumf f a m.
Proof. induction m as [|m IH]; intros [|n] a H; try lia; try reflexivity. cbn [seq map repeat dotp]. rewrite IH by lia. rewrite sumf_S. ring. Qed.

(* off the grid the last weight is dropped: 42 samples at 365, 375, .., 775 against 43 weights.  With
   light at 780 nm only, the perfect diffuser gets Y = 0. *)
Theorem C64_offgrid_refuted : exists ill cm li ly, sources ill cm li ly ly ly /\ dotp li ly = 1 /\
  forall debug fuel, (420 <= fuel)%nat -> vspd_to_xyz debug fuel (uspd 365 775 10 (repeat 1 42) (Uniform (Fin 10))) ill cm = Ret (Xyz (Fin 0) (Fin 0) (Fin 0)).
Proof.
  set (ly := repeat 1 421). set (li := spike 420 421). assert (Ly : length ly = 421%nat) by apply repeat_length. assert (Li : length li = 421%nat) by apply spike_length.
  assert (D : dotp li ly = 1). { unfold li. rewrite <- Ly. rewrite dotp_spike by lia. apply nth_repeat_lt. lia. }
  exists (nm1 li), (Cmf (nm1 ly) (nm1 ly) (nm1 ly)), li, ly. assert (S : sources (nm1 li) (Cmf (nm1 ly) (nm1 ly) (nm1 ly)) li ly ly ly) by (repeat split; apply nm1_source; assumption).
  split; [exact S|]. split; [exact D|]. intros debug fuel F.
  rewrite (to_xyz_uniform _ _ _ _ _ _ _ _ _ 10 F S) by (reflexivity || lra). rewrite (Ztrunc_IZR 10). cbn [Z.eqb Pos.eqb]. cbv zeta.
  assert (F10 : Z.to_nat (Zfloor 10) = 10%nat) by (rewrite (Zfloor_IZR 10); reflexivity).
  assert (AU : forall x, 0 <= x < 1 -> as_usize (Fin x) = 0%nat) by (intros x Hx; rewrite as_usize_fin by lra; rewrite (Zfloor_imp 0) by (cbn; lra); reflexivity).
  rewrite (weighting_fin debug fuel _ li ly ly ly 10 (even 365 10 (repeat 1 42)) 365 775 0 0); try assumption; try lra; try reflexivity.
  - rewrite even_vals, trimw_0. assert (Z : dotp (table 10 421 (prod li ly)) (repeat 1 42) = 0).
    { pose proof (table_spike 10 42 ly ltac:(lra) Ly ltac:(rewrite F10; lia)) as T. rewrite F10 in T. change (10 * 42)%nat with 420%nat in T. fold li in T. rewrite T. change (420 / 10 + 1)%nat with 43%nat.
      rewrite dotp_short by lia. rewrite (sumf_ext _ (fun k => 0 * INR k)); [unfold sumf; rewrite rsum_scale; ring|]. intros k Hk. destruct (Nat.eqb_spec k 42); [lia|ring]. }
    rewrite Z. f_equal. f_equal; f_equal; ring.
  - unfold uspd, shape. rewrite C60_trim_is_filter by (apply even_increasing; lra).
    assert (Fi : filter (inside 360 780) (even 365 10 (repeat 1 42)) = even 365 10 (repeat 1 42)).
    { assert (H : forall l, (forall x, In x l -> inside 360 780 x = true) -> filter (inside 360 780) l = l).
      { induction l as [|x l IH]; intro H; [reflexivity|]. cbn [filter]. rewrite (H x) by (now left). f_equal. apply IH. intros; apply H; now right. }
      apply H. intros x Hx. apply (In_nth _ _ (0, 0)) in Hx. destruct Hx as (k & Hk & <-). rewrite even_length, repeat_length in Hk. rewrite even_nth by (rewrite repeat_length; exact Hk).
      unfold inside. cbn [fst]. assert (INR k <= INR 41) by (apply le_INR; lia). rewrite (INR_IZR_INZ 41) in H0. change (IZR (Z.of_nat 41)) with 41 in H0. pose proof (pos_INR k). rewrite !Rleb_true by lra. reflexivity. }
    rewrite Fi. cbn [repeat]. rewrite !even_cons. cbn [last even combine length grid map seq fst sh_interval]. leq; lra.
  - symmetry. apply AU. lra.
  - rewrite F10. change (420 / 10)%nat with 42%nat. rewrite (INR_IZR_INZ 42). change (IZR (Z.of_nat 42)) with 42. symmetry. apply AU. lra.
  - rewrite F10. cbn. lia.
Qed.

(* ---- C67 ---- *)
(* an interval whose integer part is not 5 or 10 gives what the spectrum interpolated to 1 nm gives *)
Theorem C67_interpolates_partial debug fuel ill cm li lx ly lz s e h vals : (420 <= fuel)%nat -> sources ill cm li lx ly lz ->
  h < 18446744073709551616 -> ~ (5 <= h < 6) -> ~ (10 <= h < 11) -> alignable s e h vals 360 780 1 ->
  exists s1, vspd_align debug fuel (uspd s e h vals (Uniform (Fin h))) (shape 360 780 1) = Ret s1
    /\ v_interval s1 = Uniform (Fin 1)
    /\ vspd_to_xyz debug fuel (uspd s e h vals (Uniform (Fin h))) ill cm = vspd_to_xyz debug fuel s1 ill cm.
Proof.
  intros F S Hh H5 H10 A. pose proof A as (Hp & _). set (l := resampled s e h vals 360 780 1). assert (L : length l = 421%nat) by (unfold l; rewrite resampled_length, steps1; reflexivity).
  assert (E : vspd_align debug fuel (uspd s e h vals (Uniform (Fin h))) (shape 360 780 1) = Ret (nm1 l)) by (apply align_uspd; [exact A|rewrite steps1; exact F]).
  exists (nm1 l). split; [exact E|]. split; [reflexivity|].
  rewrite (to_xyz_uniform _ _ _ _ _ _ _ _ _ h F S) by (reflexivity || lra). rewrite (to_xyz_uniform _ _ (nm1 l) _ _ _ _ _ _ 1 F S) by (reflexivity || lra).
  rewrite (Ztrunc_IZR 1). cbn [Z.eqb Pos.eqb]. cbv zeta.
  assert (TB : IZR (Ztrunc h) <= h < IZR (Ztrunc h) + 1) by (rewrite Ztrunc_floor by lra; split; [apply Zfloor_lb|apply Zfloor_ub]).
  destruct (Z.eqb_spec (Ztrunc h) 5) as [Q|_]; [rewrite Q in TB; lra|]. destruct (Z.eqb_spec (Ztrunc h) 10) as [Q|_]; [rewrite Q in TB; lra|].
  unfold spd_to_xyz_integration. unfold nm1 at 6. rewrite (align1 debug fuel l F L). rewrite E. reflexivity.
Qed.
(* 10.5 nm takes the 10 nm path: samples 10.5 nm apart are multiplied by weights 10 nm apart *)
Theorem C67_truncated_interval_refuted : exists ill cm li ly spd, sources ill cm li ly ly ly /\ v_interval spd = Uniform (Fin 10.5)
  /\ alignable 360 780 10.5 (grid 360 10.5 41) 360 780 1 /\ spd = uspd 360 780 10.5 (grid 360 10.5 41) (Uniform (Fin 10.5))
  /\ forall debug fuel, (420 <= fuel)%nat -> exists s1,
      vspd_align debug fuel spd (shape 360 780 1) = Ret s1
      /\ vspd_to_xyz debug fuel s1 ill cm = Ret (Xyz (Fin 37000) (Fin 37000) (Fin 37000))
      /\ vspd_to_xyz debug fuel spd ill cm = Ret (Xyz (Fin 37050) (Fin 37050) (Fin 37050)).
Proof.
  set (ly := repeat 1 421). set (li := spike 10 421). assert (Ly : length ly = 421%nat) by apply repeat_length. assert (Li : length li = 421%nat) by apply spike_length.
  assert (D : dotp li ly = 1). { unfold li. rewrite <- Ly. rewrite dotp_spike by lia. apply nth_repeat_lt. lia. }
  set (w := grid 360 10.5 41). assert (Lw : length w = 41%nat) by apply grid_length.
  assert (H41 : INR 41 = 41) by (rewrite INR_IZR_INZ; reflexivity).
  assert (h0 : Q2R 10.5 = 21 / 2) by (clear; q2r; lra).
  assert (AL : alignable 360 780 10.5 w 360 780 1).
  { unfold alignable. rewrite Lw, H41, h0, Rmax_left, Rmin_left by lra. repeat apply conj; try lra; try lia; try apply count1; left; lra. }
  exists (nm1 li), (Cmf (nm1 ly) (nm1 ly) (nm1 ly)), li, ly, (uspd 360 780 10.5 w (Uniform (Fin 10.5))).
  assert (S : sources (nm1 li) (Cmf (nm1 ly) (nm1 ly) (nm1 ly)) li ly ly ly) by (repeat split; apply nm1_source; assumption).
  split; [exact S|]. split; [reflexivity|]. split; [exact AL|]. split; [reflexivity|]. intros debug fuel F.
  set (l := resampled 360 780 10.5 w 360 780 1). assert (L : length l = 421%nat) by (unfold l; rewrite resampled_length, steps1; reflexivity).
  exists (nm1 l). split; [apply align_uspd; [exact AL|rewrite steps1; exact F]|]. split.
  - rewrite (to_xyz_uniform _ _ (nm1 l) _ _ _ _ _ _ 1 F S) by (reflexivity || lra). rewrite (Ztrunc_IZR 1). cbn [Z.eqb Pos.eqb]. cbv zeta.
    rewrite (integration1 _ _ _ _ _ _ _ l); try assumption; [|apply align1; assumption|rewrite D; lra]. unfold xyz_of. rewrite D.
    assert (V : dot3 l li ly = 370).
    { transitivity (dotp li l).
      - unfold ly. assert (G : forall m i n, (length i <= n)%nat -> (length m <= n)%nat -> dot3 m i (repeat 1 n) = dotp i m).
        { clear. induction m as [|x m IH]; intros [|y i] [|n] H1 H2; cbn in *; try lia; try reflexivity. rewrite IH by lia. ring. }
        apply G; lia.
      - unfold li. rewrite <- L, dotp_spike by lia. unfold l. rewrite resampled_nth by (rewrite steps1; lia).
        replace (360 + INR 10 * 1) with 370 by (rewrite INR_IZR_INZ; cbn; ring). unfold av. rewrite Rmin_left, Rmax_right by lra.
        pose proof (C54_linear debug 360 10.5 41 (shape 0 0 0) 0 1 370 ltac:(rewrite h0; lra) ltac:(lia) ltac:(rewrite h0, H41; lra)) as E.
        replace (map (fun x => 0 + 1 * x) (grid 360 10.5 41)) with w in E by (rewrite (map_ext _ (fun x => x)) by (intro; ring); symmetry; apply map_id).
        rewrite sv_at in E by (rewrite ?Lw, ?H41, ?h0; lra || lia). injection E as E. rewrite E. ring. }
    rewrite V. f_equal. f_equal; f_equal; field.
  - rewrite (to_xyz_uniform _ _ _ _ _ _ _ _ _ 10.5 F S) by (reflexivity || (rewrite h0; lra)).
    assert (FZ : Zfloor 10.5 = 10%Z) by (apply Zfloor_imp; rewrite h0; cbn; lra). assert (F10 : Z.to_nat (Zfloor 10.5) = 10%nat) by (rewrite FZ; reflexivity).
    rewrite Ztrunc_floor by (rewrite h0; lra). rewrite FZ. cbn [Z.eqb Pos.eqb]. cbv zeta.
    rewrite (weighting_fin debug fuel _ li ly ly ly 10.5 (even 360 10.5 w) 360 780 0 2); try assumption; try reflexivity; try (rewrite ?h0; lra).
    + rewrite even_vals, D.
      pose proof (table_spike 10.5 1 ly ltac:(rewrite h0; lra) Ly ltac:(rewrite F10; lia)) as T. rewrite F10 in T. change (10 * 1)%nat with 10%nat in T. fold li in T. rewrite T. change (420 / 10 + 1)%nat with 43%nat.
      assert (N1 : nth 10 ly 0 = 1) by (apply nth_repeat_lt; lia). rewrite N1.
      assert (W : trimw 0 2 (map (fun k => if Nat.eqb k 1 then 1 else 0) (seq 0 43)) = spike 1 41).
      { unfold trimw, spike. rewrite map_length, seq_length. change (43 - 2 - 0)%nat with 41%nat. apply map_ext_in. intros k Hk. apply in_seq in Hk.
        rewrite (nth_map_seq (fun k => if Nat.eqb k 1 then 1 else 0)) by lia. change (43 - 2)%nat with 41%nat. unfold sumf, rsum. cbn [seq map fold_right nth Nat.eqb]. destruct (Nat.eqb k 0), (Nat.eqb k (41 - 1)); ring. }
      rewrite W. rewrite <- Lw, dotp_spike by lia. unfold w. rewrite grid_nth by lia. f_equal. cbn [INR]. rewrite h0. f_equal; f_equal; field.
    + unfold uspd, shape. rewrite C60_trim_is_filter by (apply even_increasing; rewrite h0; lra).
      assert (Fi : filter (inside 360 780) (even 360 10.5 w) = even 360 10.5 w).
      { assert (H : forall l, (forall x, In x l -> inside 360 780 x = true) -> filter (inside 360 780) l = l).
        { clear. induction l as [|x l IH]; intro H; [reflexivity|]. cbn [filter]. rewrite (H x) by (now left). f_equal. apply IH. intros; apply H; now right. }
        apply H. intros x Hx. apply (In_nth _ _ (0, 0)) in Hx. destruct Hx as (k & Hk & <-). rewrite even_length, Lw in Hk. rewrite even_nth by (rewrite Lw; exact Hk).
        unfold inside. cbn [fst]. assert (B : INR k <= INR 40) by (apply le_INR; lia). rewrite (INR_IZR_INZ 40) in B. change (IZR (Z.of_nat 40)) with 40 in B. pose proof (pos_INR k). rewrite h0, !Rleb_true by lra. reflexivity. }
      rewrite Fi. unfold w. cbn [grid seq map]. rewrite !even_cons. cbn [last even combine length grid map seq fst sh_interval]. rewrite h0. leq; lra.
    + symmetry. rewrite as_usize_fin by (rewrite h0; lra). rewrite (Zfloor_imp 0) by (rewrite h0; cbn; lra). reflexivity.
    + rewrite F10. change (420 / 10)%nat with 42%nat. rewrite (INR_IZR_INZ 42). change (IZR (Z.of_nat 42)) with 42. symmetry. apply as_usize_int; [rewrite h0; cbn [INR]; field|lia].
    + rewrite F10. cbn. lia.
Qed.

(* ---- examples ---- *)
Definition ones1 : vspd xr := nm1 (repeat 1 421).
Definition ones_cmf : cmf xr := Cmf ones1 ones1 ones1.
Lemma ones_sources : sources ones1 ones_cmf (repeat 1 421) (repeat 1 421) (repeat 1 421) (repeat 1 421).
Proof. repeat split; apply nm1_source, repeat_length. Qed.
Lemma ones_sum : dotp (repeat 1 421) (repeat 1 421) = 421.
Proof. rewrite dotp_repeat by (rewrite repeat_length; lia). unfold rsum. cbn. ring. Qed.
(* 36 samples at 380, 390, .., 730, the layout of the colour checker data *)
Example C64_example debug : vspd_to_xyz debug 500 (uspd 380 730 10 (repeat 1 36) (Uniform (Fin 10))) ones1 ones_cmf = Ret (Xyz (Fin 100) (Fin 100) (Fin 100)).
Proof.
  destruct (C64_perfect_diffuser_partial debug 500 ones1 ones_cmf _ _ _ _ 36 ltac:(lia) ones_sources) as (_ & _ & H).
  specialize (H 2%Z 730). replace (360 + 10 * IZR 2) with 380 in H by ring. rewrite H.
  - rewrite ones_sum. f_equal. f_equal; f_equal; field.
  - exists 0%nat. cbn [INR]. split; [lia|lra].
  - rewrite ones_sum. lra.
Qed.
Example C65_example debug : let a := uspd 380 730 10 (repeat 1 36) (Uniform (Fin 10)) in let b := uspd 380 730 10 (repeat 5 36) (Uniform (Fin 10)) in
  exists p, vspd_to_xyz debug 500 a ones1 ones_cmf = Ret p /\ xyz_y p = Fin 100
    /\ vspd_to_xyz debug 500 b ones1 ones_cmf = Ret (Xyz (Fin 500) (Fin 500) (Fin 500)).
Proof.
  intros a b. exists (Xyz (Fin 100) (Fin 100) (Fin 100)). split; [apply C64_example|]. split; [reflexivity|].
  set (l := map (fun x => (Fin x, (1, 1))) (grid 380 10 36)).
  pose proof (C65_to_xyz_linear debug 500 2 3 l (shape 380 730 10) ones1 ones_cmf) as H.
  assert (Ea : mix (fun x _ => x) l (shape 380 730 10) = a) by reflexivity. assert (Ea' : mix (fun _ y => y) l (shape 380 730 10) = a) by reflexivity.
  assert (Eb : mix (fun x y => 2 * x + 3 * y) l (shape 380 730 10) = b).
  { unfold mix, b, uspd, l, FinSamps, even. rewrite repeat_length, map_map. cbn [fst snd]. change (SpdShape (Fin 380) (Fin 730) (Uniform (Fin 10))) with (shape 380 730 10). f_equal.
    replace (2 * 1 + 3 * 1) with 5 by ring. cbn [grid map seq repeat combine]. reflexivity. }
  rewrite Ea, Ea', Eb in H. pose proof (C64_example debug) as E. fold a in E. rewrite E in H.
  destruct H as [(H & _)|[(H & _)|(p & q & r & Hp & Hq & Hr & X & Y & Z)]]; [discriminate..|]. injection Hp as <-. injection Hq as <-. rewrite Hr. destruct r as [x y z]. cbn [xyz_x xyz_y xyz_z] in *.
  rewrite X, Y, Z, !x_mul, !x_add. f_equal. f_equal; f_equal; ring.
Qed.
Example C66_example debug : vspd_to_xyz debug 500 (uspd 380 730 10 (repeat 1 36) (Uniform (Fin 10)))
  (Vspd (map (fun s => Sample (s_nm s) (rmul (Fin 7) (s_v s))) (v_samples ones1)) (v_shape ones1)) ones_cmf = Ret (Xyz (Fin 100) (Fin 100) (Fin 100)).
Proof. rewrite C66_illuminant_power by lra. exact (C64_example debug). Qed.
(* a ramp at 7 nm steps goes through the interpolation *)
Example C67_example debug : exists s1, vspd_align debug 500 (uspd 360 780 7 (grid 0 1 61) (Uniform (Fin 7))) (shape 360 780 1) = Ret s1
  /\ vspd_to_xyz debug 500 (uspd 360 780 7 (grid 0 1 61) (Uniform (Fin 7))) ones1 ones_cmf = vspd_to_xyz debug 500 s1 ones1 ones_cmf.
Proof.
  destruct (C67_interpolates_partial debug 500 ones1 ones_cmf _ _ _ _ 360 780 7 (grid 0 1 61) ltac:(lia) ones_sources ltac:(lra) ltac:(lra) ltac:(lra)) as (s1 & A & _ & B).
  - unfold alignable. rewrite grid_length, (INR_IZR_INZ 61), Rmax_left, Rmin_left by lra. change (IZR (Z.of_nat 61)) with 61. repeat apply conj; try lra; try lia; try apply count1; left; lra.
  - exists s1. split; assumption.
Qed.
Example C68_example debug : let y := uspd 400 430 10 [1; 2; 3; 4] (Uniform (Fin 10)) in
  spd_to_nit debug 9 (uspd 400 430 10 [1; 1; 1; 1] (Uniform (Fin 10))) (Cmf y y y) = Ret (Fin 1707.5).
Proof.
  intro y. assert (S3 : steps 400 430 10 = 3%nat) by (apply steps_unique; cbn [INR]; lra).
  unfold spd_to_nit. cbn [y_bar]. unfold uspd at 1. cbn [v_shape]. fold (shape 400 430 10). unfold y.
  rewrite align_uspd; [|apply on_own_grid; rewrite ?S3; try reflexivity; try lra; try lia; unfold countable; lra|rewrite S3; lia].
  rewrite resampled_own by (rewrite ?S3; try reflexivity; lra || lia). cbn [obind]. rewrite !uspd_vals, zip_mul_fin, fsum_fin.
  unfold of_usize. cbn [uspd v_samples FinSamps map even combine grid seq length Z.of_nat Pos.of_succ_nat Pos.succ]. rewrite x_litd, x_of_Z, x_mul, x_div by lra. unfold rsum. cbn [combine map fold_right fst snd]. leq. q2r. lra.
Qed.
End P.
