(* C77: the tabulated illuminants have the tabulated white points, exact arithmetic on the literals *)
From Coq Require Import Reals ZArith QArith Qreals Lra Lia List Bool.
From Flocq Require Import Core.
From Verif Require Import Outcome RealOps MathModel ColorModel IllumModel InterpModel VspdModel UpliftModel XReal SpecLin AdaptProofs VspdProofs PropShape SpragueProofs PropSprague AlignProofs PropAlign WeightProofs PropWeights XyzProofs PropXyz PropDiffuser PropTables WhiteProofs.
From Verif Require Import DataIllum DataCmf.
Import ListNotations.
Open Scope R_scope.

Definition zs (m : positive) (l : list (Q * Q)) : list Z := map (scaled m) (map snd l).
Definition zcmf (l : list (Q * Q)) : list Z := firstn 421 (zs 1000000000000 l).
Definition check (m : positive) (l : list (Q * Q)) (a b tol : Q) : bool :=
  let i := zint (zs m l) in let x := zcmf data_x_bar in let y := zcmf data_y_bar in let z := zcmf data_z_bar in
  exactly m (map snd l) && zclose (zdot i x) (zdot i y) (zdot i z) a b tol
  && (let i := zevery5 i in let x := zevery5 x in let y := zevery5 y in let z := zevery5 z in zclose (zdot i x) (zdot i y) (zdot i z) a b tol).

Section P.
Context {K : XConst}.

(* a constant spectrum of ones that to_xyz can put on 360..780 nm *)
Inductive diffuser : vspd xr -> Prop :=
| diffuser_1 n s e : (6 <= n)%nat -> alignable s e 1 (repeat 1 n) 360 780 1 -> diffuser (uspd s e 1 (repeat 1 n) (Uniform (Fin 1)))
| diffuser_5 n s e : (6 <= n)%nat -> alignable s e 5 (repeat 1 n) 360 780 5 -> diffuser (uspd s e 5 (repeat 1 n) (Uniform (Fin 5)))
| diffuser_10 n z e : (exists k, (k < n)%nat /\ 360 <= 360 + 10 * IZR z + INR k * 10 <= 780) -> diffuser (uspd (360 + 10 * IZR z) e 10 (repeat 1 n) (Uniform (Fin 10))).

(* lit by v and seen through the built-in CMF every diffuser has Y = 100 and chromaticity (a, b) to tol *)
Definition whites (v : vspd xr) (cm : cmf xr) (a b tol : R) : Prop := forall debug fuel d, (420 <= fuel)%nat -> diffuser d ->
  exists p x y, vspd_to_xyz debug fuel d v cm = Ret p /\ xyz_y p = Fin 100 /\ xyy_from_xyz p = Xyy (Fin x) (Fin y) (Fin 1) /\ Rabs (x - a) <= tol /\ Rabs (y - b) <= tol.

Lemma vals_scaled m l : exactly m (map snd l) = true -> vals l = map (fun z => IZR z / IZR (Zpos m)) (zs m l).
Proof. intro H. apply exactly_eq in H. unfold vals, zs. rewrite map_map. rewrite map_map in H. rewrite H, map_map. reflexivity. Qed.
Lemma e12 l : In l [data_x_bar; data_y_bar; data_z_bar] -> exactly 1000000000000 (map snd l) = true.
Proof. intros [<-|[<-|[<-|[]]]]; reflexivity. Qed.
Lemma cmf_source (OK : XConstOk K) l : In l [data_x_bar; data_y_bar; data_z_bar] ->
  exists v, vspd_table l = Ret v /\ source v (map (fun z => IZR z / IZR 1000000000000) (zcmf l)).
Proof.
  intro I. assert (W : well_formed l 360 830 1 471 0). { destruct (C75_illuminants_and_cmf OK) as (_ & _ & _ & _ & X & Y & Z). destruct I as [<-|[<-|[<-|[]]]]; assumption. }
  destruct W as (v & vs & E & _ & _ & _ & L & _ & _ & -> & V). exists (uspd 360 830 1 vs (Uniform (Fin 1))). split; [exact E|].
  pose proof V as V'. rewrite (vals_scaled _ _ (e12 l I)) in V'. assert (LZ : length (zs 1000000000000 l) = 471%nat) by (rewrite <- L, V'; symmetry; apply map_length).
  exists 360, 830, 1, vs, (Uniform (Fin 1)). split; [reflexivity|]. split.
  - unfold alignable. rewrite L, (INR_IZR_INZ 471), Rmax_left, Rmin_left by lra. cbn [Z.of_nat Pos.of_succ_nat Pos.succ]. repeat apply conj; try lia; try lra; try apply count1; left; lra.
  - rewrite V'. symmetry. apply (resampled_head (IZR 1000000000000)). exact LZ.
Qed.
Lemma ill_source m l e n : exactly m (map snd l) = true -> well_formed l 300 e 5 n 0 -> 780 <= e -> (97 <= n)%nat ->
  exists v, vspd_table l = Ret v /\ source v (map (fun z => IZR z / (625 * (209 * IZR (Zpos m)))) (zint (zs m l))).
Proof.
  intros X (v & vs & E & _ & _ & _ & L & He & _ & -> & V) H780 N. exists (uspd 300 e 5 vs (Uniform (Fin 5))). split; [exact E|].
  pose proof V as V'. rewrite (vals_scaled _ _ X) in V'. assert (LZ : length (zs m l) = n) by (rewrite <- L, V'; symmetry; apply map_length).
  exists 300, e, 5, vs, (Uniform (Fin 5)). split; [reflexivity|]. split.
  - unfold alignable. rewrite L, Rmax_left, Rmin_left by lra. repeat apply conj; try lia; try lra; try apply count1; left; lra.
  - rewrite V'. symmetry. apply resampled_zint; [apply IZR_neq; discriminate|lia|exact H780].
Qed.
Lemma white_of m l e n a b tol v cm : XConstOk K -> check m l a b tol = true -> well_formed l 300 e 5 n 0 -> 780 <= e -> (97 <= n)%nat ->
  vspd_table l = Ret v -> cie_1931_2_degree = Ret cm -> whites v cm (Q2R a) (Q2R b) (Q2R tol).
Proof.
  intros OK C W He N Ev Ec debug fuel d F D. unfold check in C. rewrite !andb_true_iff in C. destruct C as ((X & C1) & C5).
  destruct (ill_source m l e n X W He N) as (v' & Ev' & Si). rewrite Ev in Ev'. injection Ev' as <-.
  destruct (cmf_source OK data_x_bar ltac:(cbn; tauto)) as (vx & Ex & Sx). destruct (cmf_source OK data_y_bar ltac:(cbn; tauto)) as (vy & Ey & Sy). destruct (cmf_source OK data_z_bar ltac:(cbn; tauto)) as (vz & Ez & Sz).
  unfold cie_1931_2_degree in Ec. rewrite Ex, Ey, Ez in Ec. cbn [obind] in Ec. injection Ec as <-.
  pose proof (conj Si (conj Sx (conj Sy Sz)) : sources v (Cmf vx vy vz) _ _ _ _) as S. 
  pose proof (fun k => C64_perfect_diffuser_partial debug fuel _ _ _ _ _ _ k F S) as T. clear Si Sx Sy Sz S.
  rewrite !every5_scaled in T. set (k := 625 * (209 * IZR (Z.pos m))) in *. assert (Pm : 0 < IZR (Z.pos m)) by (apply IZR_lt; reflexivity). assert (Pk : 0 < k) by (unfold k; lra).
  assert (P12 : 0 < IZR 1000000000000) by lra. assert (Pkk : 0 < k * IZR 1000000000000) by (apply Rmult_lt_0_compat; assumption).
  assert (NZ : forall i c, dotp (map (fun z => IZR z / k) i) (map (fun z => IZR z / IZR 1000000000000) c) = IZR (zdot i c) / (k * IZR 1000000000000)) by (intros; apply zdot_dotp; lra).
  rewrite !NZ in T. clear NZ.
  assert (G : forall x y z, zclose x y z a b tol = true -> let k := k * IZR 1000000000000 in IZR y / k <> 0 /\ exists xx yy,
    xyy_from_xyz (Xyz (Fin (100 * (IZR x / k) / (IZR y / k))) (Fin 100) (Fin (100 * (IZR z / k) / (IZR y / k)))) = Xyy (Fin xx) (Fin yy) (Fin 1) /\ Rabs (xx - Q2R a) <= Q2R tol /\ Rabs (yy - Q2R b) <= Q2R tol).
  { intros x y z H kk. destruct (zclose_spec _ _ _ _ _ _ kk H Pkk) as (PY & PS & A & B). split; [lra|].
    set (xx := IZR x / kk) in *. set (yy := IZR y / kk) in *. set (zz := IZR z / kk) in *.
    assert (SS : 100 * xx / yy + 100 + 100 * zz / yy = 100 * (xx + yy + zz) / yy) by (field; lra).
    change (Xyz (Fin (100 * xx / yy)) (Fin 100) (Fin (100 * zz / yy))) with (FinXyz (100 * xx / yy, 100, 100 * zz / yy)). rewrite xyy_from_xyz_fin, SS.
    - exists (xx / (xx + yy + zz)), (yy / (xx + yy + zz)). split; [|split; assumption]. unfold FinXyy. f_equal; f_equal; field; lra.
    - rewrite SS. apply Rgt_not_eq. unfold Rdiv. apply Rmult_lt_0_compat; [lra|apply Rinv_0_lt_compat, PY]. }
  destruct D as [c s' e' H6 A|c s' e' H6 A|c z' e' A]; destruct (T c) as (T1 & T5 & T10); clear T.
  - destruct (G _ _ _ C1) as (Y & xx & yy & E). rewrite (T1 _ _ H6 A Y). eexists _, xx, yy. split; [reflexivity|]. split; [reflexivity|exact E].
  - destruct (G _ _ _ C5) as (Y & xx & yy & E). rewrite (T5 _ _ H6 A Y). eexists _, xx, yy. split; [reflexivity|]. split; [reflexivity|exact E].
  - destruct (G _ _ _ C1) as (Y & xx & yy & E). rewrite (T10 _ _ A Y). eexists _, xx, yy. split; [reflexivity|]. split; [reflexivity|exact E].
Qed.

Definition whites_at (v : vspd xr) (cm : cmf xr) (w : xyy xr) (tol : R) : Prop := exists a b, w = Xyy (Fin a) (Fin b) (Fin 1) /\ whites v cm a b tol.
Lemma white_at v cm a b tol : whites v cm (Q2R a) (Q2R b) (Q2R tol) -> whites_at v cm (Xyy (rlitd a) (rlitd b) (rlitd 1.0)) (Q2R tol).
Proof. intro H. exists (Q2R a), (Q2R b). split; [|exact H]. rewrite !x_litd. do 2 f_equal. clear; q2r; lra. Qed.
Lemma check_D50 : check 1000 data_D50 0.34570 0.35850 0.00005 = true. Proof. reflexivity. Qed.
Lemma check_D55 : check 1000 data_D55 0.33243 0.34744 0.00005 = true. Proof. reflexivity. Qed.
Lemma check_D60 : check 1000000000000000 data_D60 0.321616 0.337619 0.000001 = true. Proof. reflexivity. Qed.
Lemma check_D65 : check 10000 data_D65 0.31270 0.32900 0.00005 = true. Proof. reflexivity. Qed.
Theorem C77_white_points : XConstOk K -> exists cm d50 d55 d60 d65, cie_1931_2_degree = Ret cm /\ spd_D50 = Ret d50 /\ spd_D55 = Ret d55 /\ spd_D60 = Ret d60 /\ spd_D65 = Ret d65
  /\ whites_at d50 cm xy_D50 0.00005 /\ whites_at d55 cm xy_D55 0.00005 /\ whites_at d60 cm xy_D60 0.00012 /\ whites_at d65 cm xy_D65 0.00005.
Proof.
  intro OK. destruct (C75_illuminants_and_cmf OK) as (W50 & W55 & W60 & W65 & _).
  destruct (cmf_source OK data_x_bar ltac:(cbn; tauto)) as (vx & Ex & _). destruct (cmf_source OK data_y_bar ltac:(cbn; tauto)) as (vy & Ey & _). destruct (cmf_source OK data_z_bar ltac:(cbn; tauto)) as (vz & Ez & _).
  assert (Ec : cie_1931_2_degree = Ret (Cmf vx vy vz)) by (unfold cie_1931_2_degree; rewrite Ex, Ey, Ez; reflexivity).
  pose proof W50 as (v50 & _ & E50 & _). pose proof W55 as (v55 & _ & E55 & _). pose proof W60 as (v60 & _ & E60 & _). pose proof W65 as (v65 & _ & E65 & _).
  exists (Cmf vx vy vz), v50, v55, v60, v65. split; [exact Ec|]. split; [exact E50|]. split; [exact E55|]. split; [exact E60|]. split; [exact E65|].
  split; [|split; [|split]].
  - apply white_at. eapply white_of; [exact OK|exact check_D50|exact W50|lra|lia|exact E50|exact Ec].
  - apply white_at. eapply white_of; [exact OK|exact check_D55|exact W55|lra|lia|exact E55|exact Ec].
  - apply white_at. intros debug fuel d F D. destruct (white_of _ _ _ _ _ _ _ _ _ OK check_D60 W60 ltac:(lra) ltac:(lia) E60 Ec debug fuel d F D) as (p & x & y & A & B & C & X & Y).
    exists p, x, y. repeat (split; [assumption|]). apply Rabs_le_inv in X, Y. split; apply Rabs_le; clear - X Y; q2r; lra.
  - apply white_at. eapply white_of; [exact OK|exact check_D65|exact W65|lra|lia|exact E65|exact Ec].
Qed.
Lemma ones_diffuser : diffuser (nm1 (repeat 1 421)).
Proof. apply diffuser_1; [lia|]. apply on_own_grid; rewrite ?repeat_length, ?steps1; try lra; try lia. apply count1. Qed.
(* the D60 spectrum is not the one its white point was computed from *)
Theorem C77_D60_refuted : XConstOk K -> exists cm d60 p x y a b, cie_1931_2_degree = Ret cm /\ spd_D60 = Ret d60 /\ xy_D60 = Xyy (Fin a) (Fin b) (Fin 1)
  /\ vspd_to_xyz true 420 (nm1 (repeat 1 421)) d60 cm = Ret p /\ xyy_from_xyz p = Xyy (Fin x) (Fin y) (Fin 1) /\ b - y > 0.0001.
Proof.
  intro OK. destruct (C75_illuminants_and_cmf OK) as (_ & _ & W60 & _). destruct (C77_white_points OK) as (cm & _ & _ & d & _ & Ec & _ & _ & E & _).
  destruct (white_of _ _ _ _ _ _ _ _ _ OK check_D60 W60 ltac:(lra) ltac:(lia) E Ec true 420%nat _ (le_n _) ones_diffuser) as (p & x & y & A & _ & B & _ & Y).
  exists cm, d, p, x, y, (Q2R 0.321626242047397), (Q2R 0.337736995955436). split; [exact Ec|]. split; [exact E|]. split.
  - unfold xy_D60. rewrite !x_litd. do 2 f_equal. clear; q2r; lra.
  - split; [exact A|]. split; [exact B|]. apply Rabs_le_inv in Y. clear - Y. q2r; lra.
Qed.
(* D65 white is bluer than D50 white: the tolerance tells the illuminants apart *)
Example C77_example : diffuser (nm1 (repeat 1 421)) /\ check 10000 data_D65 0.34570 0.35850 0.00005 = false.
Proof. split; [apply ones_diffuser|reflexivity]. Qed.
End P.
