(* C96: the estimates of examples/hero_wavelength_sampling.rs, exact arithmetic *)
From Coq Require Import Reals ZArith QArith Qreals Lra Lia List Bool Sorted.
From Flocq Require Import Core.
From Verif Require Import Outcome RealOps MathModel ColorModel LabModel AdaptModel IllumModel InterpModel VspdModel UpliftModel HeroModel XReal SpecLin MatProofs AdaptProofs LabProofs PropLab VspdProofs PropShape SpragueProofs PropSprague AlignProofs PropAlign WeightProofs XyzProofs PropDiffuser PropTables WhiteProofs PropWhite StratProofs HeroProofs PolyProofs.
From Verif Require Import DataIllum DataCmf DataUplift DataChecker.
Import ListNotations.
Open Scope R_scope.

Section P.
Context {K : XConst}.

(* f is the Sprague interpolant of v over 360..780 nm *)
Definition shows (v : vspd xr) (f : R -> R) : Prop :=
  exists sp, sprague_new v = Ret sp /\ forall debug l, 360 <= l <= 780 -> sprague_evaluate debug sp (Fin l) = Ret (Fin (f l)).

Lemma shows_sv s e h vals iv : 0 < h -> (2 <= length vals)%nat -> s - 2 * h <= 360 -> 780 < s + (INR (length vals) + 1) * h ->
  shows (uspd s e h vals iv) (sv s h vals) /\ lips (sv s h vals) 360 780.
Proof.
  intros Hh L A B. split.
  - eexists. split; [unfold uspd; apply sprague_new_even, L|]. intros debug l Hl. rewrite <- (sv_at debug s h vals (SpdShape (Fin s) (Fin e) iv) l Hh L) by lra.
    unfold sprague_at. rewrite sprague_new_even by exact L. reflexivity.
  - destruct (C53_twice_differentiable s h vals Hh L) as (f & f1 & f2 & E & D & D1 & _). apply (lips_ext f).
    + intros l Hl. specialize (E true (SpdShape (Fin s) (Fin e) iv) l ltac:(lra)). rewrite (sv_at true s h vals _ l Hh L) in E by lra. injection E as E. symmetry. exact E.
    + apply (smooth_lips f f1); [lra|exact D|]. intro x. apply derivable_continuous_pt. exists (f2 x). apply D1.
Qed.
Lemma shows_table l s e h n lo : well_formed l s e h n lo -> 0 < h -> (2 <= n)%nat -> s - 2 * h <= 360 -> 780 < s + (INR n + 1) * h ->
  exists v, vspd_table l = Ret v /\ shows v (sv s h (vals l)) /\ lips (sv s h (vals l)) 360 780.
Proof.
  intros (v & vs & E & _ & _ & _ & L & _ & _ & -> & ->) Hh N A B. exists (uspd s e h (vals l) (Uniform (Fin h))). split; [exact E|]. apply shows_sv; rewrite ?L; assumption.
Qed.
Lemma shows_aligned vs : length vs = 421%nat -> shows (nm1 vs) (sv 360 1 vs) /\ lips (sv 360 1 vs) 360 780.
Proof. intro L. unfold nm1. apply shows_sv; rewrite ?L; try lra; try lia. rewrite (INR_IZR_INZ 421). cbn [Z.of_nat Pos.of_succ_nat Pos.succ]. lra. Qed.

Definition bar_x := sv 360 1 (vals data_x_bar).
Definition bar_y := sv 360 1 (vals data_y_bar).
Definition bar_z := sv 360 1 (vals data_z_bar).
Definition day := sv 300 5 (vals data_D65).
Lemma tables_ok : XConstOk K -> exists t cm d65, hero_tables_new = Ret t /\ cie_1931_2_degree = Ret cm /\ spd_D65 = Ret d65
  /\ (shows (x_bar cm) bar_x /\ shows (y_bar cm) bar_y /\ shows (z_bar cm) bar_z /\ shows d65 day)
  /\ (lips bar_x 360 780 /\ lips bar_y 360 780 /\ lips bar_z 360 780 /\ lips day 360 780)
  /\ forall debug, seen (sprague_evaluate debug (ht_x t)) bar_x /\ seen (sprague_evaluate debug (ht_y t)) bar_y /\ seen (sprague_evaluate debug (ht_z t)) bar_z /\ seen (sprague_evaluate debug (ht_d65 t)) day.
Proof.
  intro OK. destruct (C75_illuminants_and_cmf OK) as (_ & _ & _ & W & X & Y & Z').
  assert (N : INR 471 = 471) by (rewrite INR_IZR_INZ; reflexivity). assert (N' : INR 97 = 97) by (rewrite INR_IZR_INZ; reflexivity).
  destruct (shows_table _ _ _ _ _ _ X ltac:(lra) ltac:(lia) ltac:(lra) ltac:(lra)) as (vx & Ex & Sx & Lx). destruct (shows_table _ _ _ _ _ _ Y ltac:(lra) ltac:(lia) ltac:(lra) ltac:(lra)) as (vy & Ey & Sy & Ly).
  destruct (shows_table _ _ _ _ _ _ Z' ltac:(lra) ltac:(lia) ltac:(lra) ltac:(lra)) as (vz & Ez & Sz & Lz). destruct (shows_table _ _ _ _ _ _ W ltac:(lra) ltac:(lia) ltac:(lra) ltac:(lra)) as (vd & Ed & Sd & Ld).
  pose proof Sx as (px & Px & Qx). pose proof Sy as (py & Py & Qy). pose proof Sz as (pz & Pz & Qz). pose proof Sd as (pd & Pd & Qd).
  exists (HeroTables px py pz pd), (Cmf vx vy vz), vd.
  assert (Ec : cie_1931_2_degree = Ret (Cmf vx vy vz)) by (unfold cie_1931_2_degree; rewrite Ex, Ey, Ez; reflexivity).
  split; [unfold hero_tables_new, spd_D65; rewrite Ec; cbn [obind x_bar y_bar z_bar]; rewrite Px, Py, Pz; cbn [obind]; rewrite Ed; cbn [obind]; rewrite Pd; reflexivity|]. split; [exact Ec|]. split; [exact Ed|].
  split; [cbn [x_bar y_bar z_bar]; repeat split; assumption|]. split; [repeat split; assumption|].
  intro debug. cbn [ht_x ht_y ht_z ht_d65]. repeat apply conj; intros l Hl; [apply Qx|apply Qy|apply Qz|apply Qd]; lra.
Qed.

(* ---- the estimate converges to 4 / 420 of the integral, whatever numbers are drawn ---- *)
Theorem C96_estimate : XConstOk K -> exists t cm d65 fx fy fz fd, hero_tables_new = Ret t /\ cie_1931_2_degree = Ret cm /\ spd_D65 = Ret d65
  /\ (shows (x_bar cm) fx /\ shows (y_bar cm) fy /\ shows (z_bar cm) fz /\ shows d65 fd)
  /\ forall rho g, (forall l, 360 <= l < 780 -> rho (Fin l) = Ret (Fin (g l))) -> lips g 360 780 ->
    exists IX IY IZ C, integral (fun l => fx l * (fd l * g l)) 360 780 IX /\ integral (fun l => fy l * (fd l * g l)) 360 780 IY /\ integral (fun l => fz l * (fd l * g l)) 360 780 IZ
      /\ forall debug n m r, (n = 4 * m)%nat -> (0 < m)%nat -> (forall i, (i < n)%nat -> 0 <= r i < 1) ->
        exists X Y Z, hero_xyz debug n t rho (fun i => Fin (r i)) = Ret (Xyz (Fin X) (Fin Y) (Fin Z))
          /\ Rabs (X - 4 * IX / 420) <= C / INR n /\ Rabs (Y - 4 * IY / 420) <= C / INR n /\ Rabs (Z - 4 * IZ / 420) <= C / INR n.
Proof.
  intro OK. destruct (tables_ok OK) as (t & cm & d65 & Et & Ec & Ed & S & (Lx & Ly & Lz & Ld) & V). exists t, cm, d65, bar_x, bar_y, bar_z, day.
  split; [exact Et|]. split; [exact Ec|]. split; [exact Ed|]. split; [exact S|]. intros rho g Hg Lg.
  assert (LL : forall f, lips f 360 780 -> lips (chan day g f) 360 780) by (intros f Lf; unfold chan; apply lips_mult; [lra|exact Lf|]; apply lips_mult; [lra|exact Ld|exact Lg]).
  destruct (lips_integral _ 360 780 ltac:(lra) (LL _ Lx)) as (IX & JX). destruct (lips_integral _ 360 780 ltac:(lra) (LL _ Ly)) as (IY & JY). destruct (lips_integral _ 360 780 ltac:(lra) (LL _ Lz)) as (IZ & JZ).
  destruct (LL _ Lx) as (kx & Kx & Mx). destruct (LL _ Ly) as (ky & Ky & My). destruct (LL _ Lz) as (kz & Kz & Mz). clear LL.
  exists IX, IY, IZ, (1680 * (kx + ky + kz)). split; [exact JX|]. split; [exact JY|]. split; [exact JZ|].
  intros debug n m r En Hm Hr. destruct (V debug) as (Vx & Vy & Vz & Vd). do 3 eexists. split; [exact (hero_run debug t rho bar_x bar_y bar_z day g Vx Vy Vz Vd Hg n m r En Hm Hr)|].
  assert (N : 0 < INR n) by (apply lt_0_INR; lia).
  assert (W : forall k, 0 <= k -> k <= kx + ky + kz -> 1680 * k / INR n <= 1680 * (kx + ky + kz) / INR n) by (intros k _ H; unfold Rdiv; apply Rmult_le_compat_r; [apply Rlt_le, Rinv_0_lt_compat, N|lra]).
  split; [|split].
  - eapply Rle_trans; [apply (hsum_close _ kx IX n m r En Hm Hr Kx Mx JX)|apply W; lra].
  - eapply Rle_trans; [apply (hsum_close _ ky IY n m r En Hm Hr Ky My JY)|apply W; lra].
  - eapply Rle_trans; [apply (hsum_close _ kz IZ n m r En Hm Hr Kz Mz JZ)|apply W; lra].
Qed.

(* ---- the reflectances it is given ---- *)
Lemma strictly_even s h vals : 0 < h -> strictly (even s h vals).
Proof.
  intro Hh. unfold strictly. assert (G : forall n k (vals : list R), StronglySorted (fun a b : R * R => fst a < fst b) (combine (map (fun k => s + INR k * h) (seq k n)) vals)); [|exact (G (length vals) 0%nat vals)]. clear vals.
  induction n as [|n IH]; intros k vals; cbn [seq map combine]; [constructor|]. destruct vals as [|v vals]; [constructor|]. constructor; [apply IH|].
  apply Forall_forall. intros [x y] Hin. apply in_combine_l, in_map_iff in Hin. destruct Hin as (j & <- & Hj). apply in_seq in Hj. cbn [fst]. assert (INR k < INR j) by (apply lt_INR; lia). nra.
Qed.
Lemma hero_shape_fin : hero_shape = shape 360 780 1. Proof. apply s1_shape. Qed.
Theorem C96_reflectances debug fuel : (420 <= fuel)%nat ->
  (* any spectrum that can be put on 360..780 nm in steps of 1: its Sprague interpolant *)
  (forall spd vs, source spd vs -> exists a rho g, vspd_align debug fuel spd (shape 360 780 1) = Ret a /\ rho_spectral debug fuel spd = Ret rho
     /\ shows a g /\ lips g 360 780 /\ forall l, 360 <= l < 780 -> rho (Fin l) = Ret (Fin (g l)))
  (* the three basis spectra: a combination of the interpolants, for every colour *)
  /\ exists br bg bb fr fg fb lr lg lb ws wl, my_red = Ret br /\ my_green = Ret bg /\ my_blue = Ret bb /\ basis_sprague debug fuel = Ret ws /\ basis_linear = Ret wl
     /\ (forall l, 360 <= l < 780 -> linear_evaluate br (Fin l) = Ret (Fin (lr l)) /\ linear_evaluate bg (Fin l) = Ret (Fin (lg l)) /\ linear_evaluate bb (Fin l) = Ret (Fin (lb l)))
     /\ (forall v f, In (v, f) [(br, fr); (bg, fg); (bb, fb)] -> exists a, vspd_align debug fuel v (shape 360 780 1) = Ret a /\ shows a f)
     /\ forall r g b, let gs l := fr l * r + fg l * g + fb l * b in let gl l := lr l * r + lg l * g + lb l * b in
          lips gs 360 780 /\ lips gl 360 780
          /\ forall l, 360 <= l < 780 -> rho_mixed ws (Rgb (Fin r) (Fin g) (Fin b)) (Fin l) = Ret (Fin (gs l)) /\ rho_mixed wl (Rgb (Fin r) (Fin g) (Fin b)) (Fin l) = Ret (Fin (gl l)).
Proof.
  intro F. assert (A : forall spd vs, source spd vs -> exists rho, vspd_align debug fuel spd (shape 360 780 1) = Ret (nm1 vs) /\ rho_spectral debug fuel spd = Ret rho
     /\ shows (nm1 vs) (sv 360 1 vs) /\ lips (sv 360 1 vs) 360 780 /\ forall l, 360 <= l < 780 -> rho (Fin l) = Ret (Fin (sv 360 1 vs l))).
  { intros spd vs S. destruct (shows_aligned vs (source_length _ _ S)) as [W L]. pose proof W as (sp & E & V). exists (sprague_evaluate debug sp). pose proof (source_align debug fuel _ _ S F) as Al.
    split; [exact Al|]. split; [unfold rho_spectral; rewrite hero_shape_fin, Al; cbn [obind]; rewrite E; reflexivity|]. split; [exact W|]. split; [exact L|]. intros l Hl. apply V. lra. }
  split; [intros spd vs S; destruct (A spd vs S) as (rho & B); exists (nm1 vs), rho, (sv 360 1 vs); exact B|].
  destruct C75_uplift_tables as ((LR & ER) & (LG & EG) & (LB & EB) & _).
  assert (SO : forall l, length l = 81%nat -> source (uspd 380 780 5 (map Q2R l) (Uniform (Fin 5))) (resampled 380 780 5 (map Q2R l) 360 780 1)).
  { intros l Ll. exists 380, 780, 5, (map Q2R l), (Uniform (Fin 5)). split; [reflexivity|]. split; [|reflexivity]. unfold alignable. rewrite map_length, Ll, (INR_IZR_INZ 81), Rmax_right, Rmin_left by lra. cbn [Z.of_nat Pos.of_succ_nat Pos.succ].
    repeat apply conj; try lia; try lra; try apply count1; right; exists 20%nat; cbn [INR]; lra. }
  assert (ST : forall l, length l = 81%nat -> strictly (even 380 5 (map Q2R l)) /\ even 380 5 (map Q2R l) <> []).
  { intros l Ll. split; [|intro H; apply (f_equal (@length _)) in H; rewrite even_length, map_length, Ll in H; discriminate]. apply strictly_even. lra. }
  pose proof (SO _ LR) as SR. pose proof (SO _ LG) as SG. pose proof (SO _ LB) as SB. destruct (ST _ LR) as [TR NR]. destruct (ST _ LG) as [TG NG]. destruct (ST _ LB) as [TB NB]. clear SO ST.
  destruct (A _ _ SR) as (pr & Ar & Pr & Wr & Mr & Vr). destruct (A _ _ SG) as (pg & Ag & Pg & Wg & Mg & Vg). destruct (A _ _ SB) as (pb & Ab & Pb & Wb & Mb & Vb). clear A.
  eexists _, _, _, (sv 360 1 (resampled 380 780 5 (map Q2R data_MY_RED) 360 780 1)), (sv 360 1 (resampled 380 780 5 (map Q2R data_MY_GREEN) 360 780 1)), (sv 360 1 (resampled 380 780 5 (map Q2R data_MY_BLUE) 360 780 1)), (plin (even 380 5 (map Q2R data_MY_RED))), (plin (even 380 5 (map Q2R data_MY_GREEN))), (plin (even 380 5 (map Q2R data_MY_BLUE))), (pr, pg, pb), _.
  split; [exact ER|]. split; [exact EG|]. split; [exact EB|].
  split; [unfold basis_sprague; rewrite ER; cbn [obind]; rewrite Pr; cbn [obind]; rewrite EG; cbn [obind]; rewrite Pg; cbn [obind]; rewrite EB; cbn [obind]; rewrite Pb; reflexivity|].
  split; [unfold basis_linear; rewrite ER, EG, EB; reflexivity|].
  assert (LV : forall l x, strictly (even 380 5 (map Q2R l)) -> even 380 5 (map Q2R l) <> [] -> linear_evaluate (uspd 380 780 5 (map Q2R l) (Uniform (Fin 5))) (Fin x) = Ret (Fin (plin (even 380 5 (map Q2R l)) x))) by (intros l x H1 H2; unfold uspd; apply linear_lin; assumption).
  split; [intros l Hl; repeat apply conj; apply LV; assumption|].
  split; [intros v f [H|[H|[H|[]]]]; injection H as <- <-; eexists; (split; [eassumption|assumption])|].
  intros r g b gs gl. assert (LL : forall f1 f2 f3, lips f1 360 780 -> lips f2 360 780 -> lips f3 360 780 -> lips (fun l => f1 l * r + f2 l * g + f3 l * b) 360 780).
  { intros f1 f2 f3 H1 H2 H3. apply lips_plus; [apply lips_plus|]; apply lips_scale; assumption. }
  split; [apply LL; assumption|]. split; [apply LL; apply plin_lips; assumption|]. intros l Hl. unfold rho_mixed. rewrite Vr, Vg, Vb by exact Hl. rewrite !LV by assumption. split; reflexivity.
Qed.

(* ---- the weights do not add up to one: a white surface comes out brighter than 100 ---- *)
Theorem C96_white_refuted : XConstOk K -> exists t d65 cm spd, hero_tables_new = Ret t /\ spd_D65 = Ret d65 /\ cie_1931_2_degree = Ret cm
  /\ (forall debug fuel, (420 <= fuel)%nat -> exists c, vspd_to_xyz debug fuel spd d65 cm = Ret c /\ xyz_y c = Fin 100)
  /\ (forall debug fuel, (420 <= fuel)%nat -> exists rho, rho_spectral debug fuel spd = Ret rho
     /\ forall n m r, (n = 4 * m)%nat -> (16384 <= Z.of_nat n)%Z -> (forall i, (i < n)%nat -> 0 <= r i < 1) ->
       exists X Y Z, hero_xyz debug n t rho (fun i => Fin (r i)) = Ret (Xyz (Fin X) (Fin Y) (Fin Z)) /\ 100.4 <= Y <= 100.9).
Proof.
  intro OK. destruct (tables_ok OK) as (t & cm & d65 & Et & Ec & Ed & _ & _ & V). exists t, d65, cm, (nm1 (repeat 1 421)). split; [exact Et|]. split; [exact Ed|]. split; [exact Ec|]. split.
  - intros debug fuel F. destruct (C77_white_points OK) as (cm' & _ & _ & _ & d' & Ec' & _ & _ & _ & Ed' & _ & _ & _ & W). rewrite Ec in Ec'. rewrite Ed in Ed'. injection Ec' as <-. injection Ed' as <-. destruct W as (a & b & _ & W).
    destruct (W debug fuel _ F ones_diffuser) as (c & x & y & E & Y & _). exists c. split; assumption.
  - intros debug fuel F. set (ones := repeat 1 421). assert (L1 : length ones = 421%nat) by (unfold ones; apply repeat_length).
    destruct (proj1 (C96_reflectances debug fuel F) (nm1 ones) ones (nm1_source ones L1)) as (a & rho & g & Ea & Er & Sg & _ & Vg).
    pose proof (source_align debug fuel _ _ (nm1_source ones L1) F) as Ea'. rewrite Ea in Ea'. injection Ea' as ->.
    assert (Hg : forall l, 360 <= l < 780 -> rho (Fin l) = Ret (Fin 1)).
    { intros l Hl. rewrite Vg by exact Hl. do 2 f_equal. destruct Sg as (sp & E1 & E2). destruct (shows_aligned ones L1) as [(sp' & E1' & E2') _]. rewrite E1 in E1'. injection E1' as <-.
      specialize (E2 debug l ltac:(lra)). specialize (E2' debug l ltac:(lra)). rewrite E2 in E2'. injection E2' as ->. unfold ones. apply sv_const; [lra|lia]. }
    exists rho. split; [exact Er|]. intros n m r En Hn Hr. assert (Hm : (0 < m)%nat) by lia. destruct (V debug) as (Vx & Vy & Vz & Vd).
    do 3 eexists. split; [exact (hero_run debug t rho bar_x bar_y bar_z day (fun _ => 1) Vx Vy Vz Vd Hg n m r En Hm Hr)|].
    destruct brightness as [BL (v & BI & BV)]. assert (EQ : forall x, 360 <= x <= 780 -> sv 360 1 (vals data_y_bar) x * sv 300 5 (vals data_D65) x = chan day (fun _ => 1) bar_y x) by (intros x _; unfold chan, bar_y, day; ring).
    apply (lip_ext _ _ _ _ _ EQ) in BL. assert (I37 : 360 <= 780) by lra. apply (integral_ext _ _ _ _ _ I37 EQ) in BI.
    pose proof (hsum_close _ 2.163 v n m r En Hm Hr ltac:(clear; lra) BL BI) as HC. set (Y := hsum (chan day (fun _ => 1) bar_y) n r / INR n) in *. clearbody Y.
    assert (N : 16384 <= INR n) by (rewrite INR_IZR_INZ; apply IZR_le in Hn; exact Hn).
    assert (B : 1680 * 2.163 / INR n <= 0.222). { apply (Rmult_le_reg_r (INR n)); [lra|]. unfold Rdiv. rewrite Rmult_assoc, Rinv_l by lra. lra. }
    apply Rabs_le_inv in HC. split; lra.
Qed.

(* ---- the program runs to its end ---- *)
Definition summary (ds : list R) (o : xr * xr * xr) : Prop := exists mn mx mean, o = (Fin mn, Fin mx, Fin mean) /\ (forall d, In d ds -> mn <= d <= mx)
  /\ (mn = xmax \/ In mn ds) /\ (mx = xmin \/ In mx ds) /\ mean = sum_of (fun d => d) ds / 24.
Lemma stats_fin ds : summary ds (hero_stats (map Fin ds)).
Proof.
  unfold hero_stats. assert (G : forall ds mn mx s, exists mn' mx', fold_left (fun '(mn, mx, mean) dE => (rmin mn dE, rmax mx dE, radd mean dE)) (map Fin ds) (Fin mn, Fin mx, Fin s) = (Fin mn', Fin mx', Fin (s + sum_of (fun d => d) ds))
    /\ mn' <= mn /\ mx <= mx' /\ (forall d, In d ds -> mn' <= d <= mx') /\ (mn' = mn \/ In mn' ds) /\ (mx' = mx \/ In mx' ds)).
  { clear. induction ds as [|d ds IH]; intros mn mx s; cbn [map fold_left sum_of].
    - exists mn, mx. rewrite Rplus_0_r. split; [reflexivity|]. split; [lra|]. split; [lra|]. split; [intros d []|]. split; left; reflexivity.
    - rewrite x_min, x_max, x_add. destruct (IH (Rmin mn d) (Rmax mx d) (s + d)) as (mn' & mx' & E & A & B & C & D1 & D2). exists mn', mx'. rewrite E.
      pose proof (Rmin_l mn d). pose proof (Rmin_r mn d). pose proof (Rmax_l mx d). pose proof (Rmax_r mx d).
      split; [rewrite Rplus_assoc; reflexivity|]. split; [lra|]. split; [lra|]. split; [intros x [<-|H']; [lra|apply C, H']|]. split.
      + destruct D1 as [->|D1]; [|right; right; exact D1]. unfold Rmin. destruct (Rle_dec mn d); [left; reflexivity|right; left; reflexivity].
      + destruct D2 as [->|D2]; [|right; right; exact D2]. unfold Rmax. destruct (Rle_dec mx d); [right; left; reflexivity|left; reflexivity]. }
  rewrite !x_litd. assert (Z0 : Q2R 0.0 = 0) by (clear; q2r; lra). assert (Z24 : Q2R 24.0 = 24) by (clear; q2r; lra). rewrite Z0, Z24. destruct (G ds xmax xmin 0) as (mn & mx & E & _ & _ & C & D1 & D2).
  change (rmax_value : xr) with (Fin xmax). change (rmin_value : xr) with (Fin xmin). rewrite E, x_div, Rplus_0_l by lra. exists mn, mx. eexists. split; [reflexivity|]. auto.
Qed.
Lemma sum_between ds lo hi : (forall d, In d ds -> lo <= d <= hi) -> INR (length ds) * lo <= sum_of (fun d => d) ds <= INR (length ds) * hi.
Proof.
  induction ds as [|d ds IH]; intro H; [cbn; lra|]. cbn [length sum_of]. rewrite S_INR. pose proof (H d (or_introl eq_refl)). specialize (IH (fun x Hx => H x (or_intror Hx))). lra.
Qed.
Lemma reference_ok : XConstOk K -> exists d65 cm li lx ly lz, spd_D65 = Ret d65 /\ cie_1931_2_degree = Ret cm /\ sources d65 cm li lx ly lz /\ dotp li ly <> 0.
Proof.
  intro OK. pose proof check_D65 as C. unfold check in C. rewrite !andb_true_iff in C. destruct C as ((X & C1) & _). destruct (C75_illuminants_and_cmf OK) as (_ & _ & _ & W & _).
  destruct (ill_source _ _ _ _ X W ltac:(lra) ltac:(lia)) as (v & Ev & Si).
  destruct (cmf_source OK data_x_bar ltac:(cbn; tauto)) as (vx & Ex & Sx). destruct (cmf_source OK data_y_bar ltac:(cbn; tauto)) as (vy & Ey & Sy). destruct (cmf_source OK data_z_bar ltac:(cbn; tauto)) as (vz & Ez & Sz).
  exists v, (Cmf vx vy vz). do 4 eexists. split; [exact Ev|]. split; [unfold cie_1931_2_degree; rewrite Ex, Ey, Ez; reflexivity|]. split; [repeat split; [exact Si|exact Sx|exact Sy|exact Sz]|].
  rewrite zdot_dotp by lra. match goal with |- IZR ?y / ?k <> 0 => pose proof (zclose_spec _ _ _ _ _ _ k C1 ltac:(lra)) as (PY & _) end. lra.
Qed.
Lemma dE_fin debug fuel spd vs c v : XConstOk K -> (420 <= fuel)%nat -> source spd vs -> exists d, hero_dE debug fuel (FinM c) spd (FinXyz v) = Ret (Fin d) /\ 0 <= d.
Proof.
  intros OK F S. destruct (reference_ok OK) as (d65 & cm & li & lx & ly & lz & Ed & Ec & So & N). pose proof So as (Si & Sx & Sy & Sz). apply source_length in Si, Sx, Sy, Sz. pose proof (source_length _ _ S) as Ls.
  unfold hero_dE. rewrite e308, (source_align _ _ _ _ S F). cbn [obind]. rewrite Ed. cbn [obind]. rewrite Ec. cbn [obind].
  rewrite (to_xyz_uniform debug fuel (nm1 vs) d65 cm li lx ly lz 1 F So eq_refl ltac:(lra)). rewrite (Ztrunc_IZR 1). cbn [Z.eqb Pos.eqb]. cbv zeta.
  rewrite (integration1 debug fuel (nm1 vs) li lx ly lz vs F Si Sx Sy Sz (align1 debug fuel vs F Ls) N). cbn [obind].
  assert (E50 : exists w, xyz_from_chromaticity xy_D50 = FinXyz w /\ white_ok w).
  { unfold xy_D50. rewrite !x_litd. change (Xyy (Fin ?x) (Fin ?y) (Fin ?l)) with (FinXyy (x, y, l)). rewrite xyz_from_chromaticity_fin by (clear; q2r; lra). eexists. split; [reflexivity|]. unfold white_ok. clear. q2r. repeat split; lra. }
  destruct E50 as (w & -> & Hw). unfold xyz_of. change (Xyz (Fin ?x) (Fin ?y) (Fin ?z)) with (FinXyz (x, y, z)). rewrite !mat_mul_xyz_fin, !xyz_to_lab_fin by exact Hw.
  match goal with |- context [delta_E_2000 (FinLab ?a) (FinLab ?b)] => destruct (C41_delta2000_defined a b) as (d & E & P & _) end. exists d. rewrite E. split; [reflexivity|exact P].
Qed.
(* each swatch: a spectrum that can be resampled and a reflectance that is finite over the range *)
Definition swatch (p : vspd xr * outcome (xr -> outcome xr)) : Prop := exists vs rho g, source (fst p) vs /\ snd p = Ret rho /\ seen rho g.
Lemma block_fin debug fuel n m t c sw r fx fy fz fd : XConstOk K -> (420 <= fuel)%nat -> (n = 4 * m)%nat -> (0 < m)%nat -> (forall k i, 0 <= r k i < 1) ->
  seen (sprague_evaluate debug (ht_x t)) fx -> seen (sprague_evaluate debug (ht_y t)) fy -> seen (sprague_evaluate debug (ht_z t)) fz -> seen (sprague_evaluate debug (ht_d65 t)) fd ->
  Forall swatch sw -> exists ds, length ds = length sw /\ (forall d, In d ds -> 0 <= d) /\ hero_block debug fuel n t (FinM c) sw (fun k i => Fin (r k i)) = Ret (hero_stats (map Fin ds)).
Proof.
  intros OK F En Hm Hr Vx Vy Vz Vd HS. unfold hero_block.
  assert (G : forall k0, exists ds, length ds = length sw /\ (forall d, In d ds -> 0 <= d) /\ omap (fun '(k, (spd, rho)) => let! rho := rho in let! c0 := hero_xyz debug n t rho (fun i => Fin (r k i)) in hero_dE debug fuel (FinM c) spd c0) (combine (seq k0 (length sw)) sw) = Ret (map Fin ds)).
  { clear - OK F En Hm Hr Vx Vy Vz Vd HS. induction HS as [|[spd rho] sw (vs & rho' & g & S & E & V) HS IH]; intro k0.
    - exists []. split; [reflexivity|]. split; [intros d []|reflexivity].
    - cbn [fst snd] in *. subst rho. cbn [length seq combine omap obind]. rewrite (hero_run debug t rho' fx fy fz fd g Vx Vy Vz Vd V n m (r k0) En Hm (fun i _ => Hr k0 i)). cbn [obind].
      match goal with |- context [hero_dE debug fuel (FinM c) spd (FinXyz ?v)] => destruct (dE_fin debug fuel spd vs c v OK F S) as (d & -> & P) end. cbn [obind].
      destruct (IH (Datatypes.S k0)) as (ds & L & Q & ->). cbn [obind]. exists (d :: ds). split; [cbn [length]; rewrite L; reflexivity|]. split; [intros x [<-|Hx]; [exact P|apply Q, Hx]|reflexivity]. }
  destruct (G 0%nat) as (ds & L & Q & E). exists ds. split; [exact L|]. split; [exact Q|]. rewrite E. reflexivity.
Qed.
Lemma spectra_source : XConstOk K -> exists spds, omap vspd_table data_spectral = Ret spds /\ length spds = 24%nat /\ Forall (fun v => exists vs, source v vs) spds.
Proof.
  intro OK. destruct (C75_colour_checker OK) as (L & _ & W).
  assert (G : forall ls, (forall l, In l ls -> well_formed l 380 730 10 36 0) -> exists spds, omap vspd_table ls = Ret spds /\ length spds = length ls /\ Forall (fun v => exists vs, source v vs) spds).
  { clear - K. induction ls as [|l ls IH]; intro H; [exists []; repeat split; constructor|]. destruct (IH (fun x Hx => H x (or_intror Hx))) as (spds & E & L & S).
    destruct (H l (or_introl eq_refl)) as (v & vs & Ev & _ & _ & _ & Lv & _ & _ & Vv & _). exists (v :: spds). cbn [omap]. rewrite Ev. cbn [obind]. rewrite E. split; [reflexivity|]. split; [cbn [length]; rewrite L; reflexivity|]. constructor; [|exact S].
    exists (resampled 380 730 10 vs 360 780 1), 380, 730, 10, vs, (Uniform (Fin 10)). split; [exact Vv|]. split; [|reflexivity]. unfold alignable. rewrite Lv, (INR_IZR_INZ 36), Rmax_right, Rmin_right by lra. cbn [Z.of_nat Pos.of_succ_nat Pos.succ].
    repeat apply conj; try lia; try lra; try apply count1; right; [exists 20%nat|exists 370%nat]; rewrite INR_IZR_INZ; cbn; lra. }
  destruct (G _ W) as (spds & E & Ls & S). exists spds. rewrite L in Ls. split; [exact E|]. split; [exact Ls|exact S].
Qed.
(* 24 colour differences, none negative, and their least, greatest and mean *)
Definition report (o : xr * xr * xr) : Prop := exists ds mn mx mean, length ds = 24%nat /\ (forall d, In d ds -> 0 <= d) /\ o = (Fin mn, Fin mx, Fin mean)
  /\ (forall d, In d ds -> mn <= d <= mx) /\ (mn = xmax \/ In mn ds) /\ (mx = xmin \/ In mx ds) /\ mean = sum_of (fun d => d) ds / 24 /\ mn <= mean <= mx.
Theorem C96_program : XConstOk K -> exists spds, omap vspd_table data_spectral = Ret spds /\
  forall debug fuel n m rgbs r1 r2 r3, (420 <= fuel)%nat -> (n = 4 * m)%nat -> (0 < m)%nat -> length rgbs = 24%nat ->
    (forall k i, 0 <= r1 k i < 1) -> (forall k i, 0 <= r2 k i < 1) -> (forall k i, 0 <= r3 k i < 1) ->
    exists b1 b2 b3, hero_main debug fuel n spds (map FinRgb rgbs) (fun k i => Fin (r1 k i)) (fun k i => Fin (r2 k i)) (fun k i => Fin (r3 k i)) = Ret (b1, b2, b3)
      /\ report b1 /\ report b2 /\ report b3.
Proof.
  intro OK. destruct (spectra_source OK) as (spds & Es & Ls & Ss). exists spds. split; [exact Es|]. intros debug fuel n m rgbs r1 r2 r3 F En Hm Lr H1 H2 H3.
  destruct (tables_ok OK) as (t & cm & d65 & Et & _ & _ & _ & _ & V). destruct (V debug) as (Vx & Vy & Vz & Vd). clear V.
  assert (EC : exists c, cat02 (xyz_from_chromaticity xy_D65) (xyz_from_chromaticity xy_D50) = Ret (FinM c)).
  { unfold xy_D50, xy_D65. rewrite !x_litd. change (Xyy (Fin ?x) (Fin ?y) (Fin ?l)) with (FinXyy (x, y, l)). rewrite !xyz_from_chromaticity_fin by (clear; q2r; lra). eexists. apply cat02_fin.
    unfold nonzero3, cat02_mat, v0, v1, v2. cbn [mapp fst snd]. clear. q2r. repeat split; lra. }
  destruct EC as (c & EC). destruct (C96_reflectances debug fuel F) as (RS & br & bg & bb & fr & fg & fb & lr & lg & lb & ws & wl & _ & _ & _ & Ews & Ewl & _ & _ & RM).
  assert (S1 : Forall swatch (map (fun spd => (spd, rho_spectral debug fuel spd)) spds)).
  { apply Forall_map. eapply Forall_impl; [|exact Ss]. intros v (vs & S). destruct (RS v vs S) as (a & rho & g & _ & E & _ & _ & B). exists vs, rho, g. split; [exact S|]. split; [exact E|exact B]. }
  assert (S2 : forall w, (forall r g b, exists f, seen (rho_mixed w (Rgb (Fin r) (Fin g) (Fin b))) f) -> Forall swatch (map (fun '(spd, rgb) => (spd, Ret (rho_mixed w rgb))) (combine spds (map FinRgb rgbs)))).
  { intros w Hw. clear - Ss Hw. revert rgbs. induction Ss as [|v l (vs & S) Ss IH]; intros [|[[r g] b] rgbs]; cbn [map combine]; try constructor; [|apply IH].
    destruct (Hw r g b) as (f & Hf). exists vs, (rho_mixed w (Rgb (Fin r) (Fin g) (Fin b))), f. split; [exact S|]. split; [reflexivity|exact Hf]. }
  assert (RP : forall ds, length ds = 24%nat -> (forall d, In d ds -> 0 <= d) -> report (hero_stats (map Fin ds))).
  { intros ds L P. destruct (stats_fin ds) as (mn & mx & mean & E & A & B & C & D). exists ds, mn, mx, mean. repeat (split; [assumption|]). pose proof (sum_between ds mn mx A) as S. rewrite L, INR_IZR_INZ in S. cbn [Z.of_nat Pos.of_succ_nat Pos.succ] in S. rewrite D. lra. }
  assert (LC : forall w, length (map (fun '(spd, rgb) => (spd, Ret (rho_mixed w rgb))) (combine spds (map FinRgb rgbs))) = 24%nat) by (intro w; rewrite map_length, combine_length, map_length, Ls, Lr; reflexivity).
  destruct (block_fin debug fuel n m t c _ r1 _ _ _ _ OK F En Hm H1 Vx Vy Vz Vd S1) as (d1 & L1 & P1' & E1).
  assert (S2s : Forall swatch (map (fun '(spd, rgb) => (spd, Ret (rho_mixed ws rgb))) (combine spds (map FinRgb rgbs)))) by (apply S2; intros r g b; destruct (RM r g b) as (_ & _ & B); eexists; intros l Hl; exact (proj1 (B l Hl))).
  assert (S2l : Forall swatch (map (fun '(spd, rgb) => (spd, Ret (rho_mixed wl rgb))) (combine spds (map FinRgb rgbs)))) by (apply S2; intros r g b; destruct (RM r g b) as (_ & _ & B); eexists; intros l Hl; exact (proj2 (B l Hl))).
  destruct (block_fin debug fuel n m t c _ r2 _ _ _ _ OK F En Hm H2 Vx Vy Vz Vd S2s) as (d2 & L2 & P2' & E2).
  destruct (block_fin debug fuel n m t c _ r3 _ _ _ _ OK F En Hm H3 Vx Vy Vz Vd S2l) as (d3 & L3 & P3' & E3).
  do 3 eexists. split; [unfold hero_main; rewrite Et; cbn [obind]; rewrite EC; cbn [obind]; rewrite E1; cbn [obind]; rewrite Ews; cbn [obind]; rewrite E2; cbn [obind]; rewrite Ewl; cbn [obind]; rewrite E3; reflexivity|].
  rewrite map_length, Ls in L1. rewrite LC in L2, L3. split; [|split]; apply RP; assumption.
Qed.
End P.

Section Examples.
Local Existing Instance f64_const.
(* a grey surface, all random numbers 1/2, 8 strata *)
Example C96_grey : exists t c, hero_tables_new = Ret t /\ hero_xyz true 8 t (fun _ => Ret (Fin (1 / 5))) (fun _ => Fin (1 / 2)) = Ret (FinXyz c).
Proof.
  destruct (C96_estimate f64_const_ok) as (t & cm & d65 & fx & fy & fz & fd & E & _ & _ & _ & H). exists t.
  destruct (H (fun _ => Ret (Fin (1 / 5))) (fun _ => 1 / 5) (fun _ _ => eq_refl) (lips_const _ _ _)) as (IX & IY & IZ & C & _ & _ & _ & G).
  destruct (G true 8%nat 2%nat (fun _ => 1 / 2) eq_refl ltac:(lia) ltac:(intros; lra)) as (x & y & z & R1 & _). exists (x, y, z). split; [exact E|exact R1].
Qed.
(* the 24 colours all lifted from the same grey *)
Example C96_run : exists spds b1 b2 b3, omap vspd_table data_spectral = Ret spds
  /\ hero_main true 420 4 spds (map FinRgb (repeat (1 / 5, 1 / 5, 1 / 5) 24)) (fun _ _ => Fin 0) (fun _ _ => Fin (1 / 2)) (fun _ _ => Fin (3 / 4)) = Ret (b1, b2, b3) /\ report b2.
Proof.
  destruct (C96_program f64_const_ok) as (spds & E & H). exists spds.
  destruct (H true 420%nat 4%nat 1%nat (repeat (1 / 5, 1 / 5, 1 / 5) 24) (fun _ _ => 0) (fun _ _ => 1 / 2) (fun _ _ => 3 / 4)) as (b1 & b2 & b3 & R1 & _ & B & _); try lia; try reflexivity; try (intros; lra).
  exists b1, b2, b3. split; [exact E|]. split; [exact R1|exact B].
Qed.
(* a reflectance that is not smooth: Lipschitz, but with a corner at 500 nm *)
Example C96_corner : lips (plin [(400, 0); (500, 1); (700, 0.5)]) 360 780.
Proof. apply plin_lips. repeat constructor; cbn; lra. Qed.
End Examples.
