(* C64-C68: tristimulus values and luminance of spectra, exact arithmetic *)
From Coq Require Import Reals ZArith QArith Qreals Lra Lia List Bool.
From Flocq Require Import Core.
From Verif Require Import Outcome RealOps MathModel ColorModel InterpModel VspdModel XReal SpecLin VspdProofs PropShape SpragueProofs PropSprague AlignProofs PropAlign LagrangeProofs WeightProofs PropWeights LinProofs XyzProofs.
Import ListNotations.
Open Scope R_scope.

Section P.
Context {K : XConst}.

(* ---- C65 ---- *)
(* samples given as wavelength, first value, second value; wavelengths may be anything *)
Definition mix (F : R -> R -> R) (l : list (xr * (R * R))) (sh : spd_shape xr) : vspd xr :=
  Vspd (map (fun p => Sample (fst p) (Fin (F (fst (snd p)) (snd (snd p))))) l) sh.
(* the third result is the same combination of the first two, and the calls panic together *)
Definition combines (al be : R) (a b c : outcome (xyz xr)) : Prop :=
  (a = Panic /\ b = Panic /\ c = Panic) \/ (a = OutOfFuel /\ b = OutOfFuel /\ c = OutOfFuel) \/
  (exists p q r, a = Ret p /\ b = Ret q /\ c = Ret r
    /\ xyz_x r = radd (rmul (Fin al) (xyz_x p)) (rmul (Fin be) (xyz_x q))
    /\ xyz_y r = radd (rmul (Fin al) (xyz_y p)) (rmul (Fin be) (xyz_y q))
    /\ xyz_z r = radd (rmul (Fin al) (xyz_z p)) (rmul (Fin be) (xyz_z q))).
Lemma mix_rel al be l sh : VR al be (mix (fun x _ => x) l sh) (mix (fun _ y => y) l sh) (mix (fun x y => al * x + be * y) l sh).
Proof.
  split; [|split; reflexivity]. unfold mix. cbn [v_samples]. induction l as [|p l IH]; cbn [map]; constructor; [|exact IH].
  split; [split; reflexivity|]. cbn. reflexivity.
Qed.
Lemma LC_eq al be x y z : LC al be x y z -> z = radd (rmul (Fin al) x) (rmul (Fin be) y).
Proof. destruct x, y; cbn; intro H; try tauto; exact H. Qed.
Theorem C65_to_xyz_linear debug fuel al be l sh ill cm :
  combines al be (vspd_to_xyz debug fuel (mix (fun x _ => x) l sh) ill cm) (vspd_to_xyz debug fuel (mix (fun _ y => y) l sh) ill cm)
    (vspd_to_xyz debug fuel (mix (fun x y => al * x + be * y) l sh) ill cm).
Proof.
  pose proof (to_xyz_spd al be debug fuel _ _ _ ill cm (mix_rel al be l sh)) as H. unfold combines.
  destruct (vspd_to_xyz debug fuel (mix (fun x _ => x) l sh) ill cm) as [p| |], (vspd_to_xyz debug fuel (mix (fun _ y => y) l sh) ill cm) as [q| |],
    (vspd_to_xyz debug fuel (mix (fun x y => al * x + be * y) l sh) ill cm) as [r| |]; cbn in H; try tauto.
  right. right. exists p, q, r. destruct H as (H1 & H2 & H3). repeat split; apply LC_eq; assumption.
Qed.
(* Mul<f64> and Div<f64> keep the shape of a spectrum made by VSPD::new *)
Lemma oindex_map {A B} (g : A -> B) l k : oindex (map g l) k = obind (oindex l k) (fun x => Ret (g x)).
Proof. unfold oindex. rewrite nth_error_map. destruct (nth_error l k); reflexivity. Qed.
Lemma shape_of_nms (g : sample xr -> sample xr) l : (forall x, s_nm (g x) = s_nm x) -> calculate_shape (map g l) = calculate_shape l.
Proof.
  intro H. unfold calculate_shape, calculate_interval. rewrite map_length. destruct (Nat.ltb (length l) 2); [reflexivity|].
  assert (F : first_opt (map g l) = option_map g (first_opt l)) by (destruct l; reflexivity).
  assert (L : last_opt (map g l) = option_map g (last_opt l)).
  { clear F. induction l as [|x l IH]; [reflexivity|]. destruct l as [|y l]; [reflexivity|]. exact IH. }
  rewrite F, L, !oindex_map. clear F L. destruct (first_opt l) as [f|], (last_opt l) as [e|]; cbn [option_map unwrap obind]; try reflexivity.
  destruct (oindex l 1) as [a| |]; cbn [obind]; [|reflexivity|reflexivity]. destruct (oindex l 0) as [b| |]; cbn [obind]; [|reflexivity|reflexivity].
  rewrite !H. set (A := rsub (s_nm a) (s_nm b)). 
  assert (E : forall q t, ofold (fun same i => let! a := oindex (map g l) i in let! b := oindex (map g l) (i - 1) in Ret (same && rapprox (rsub (s_nm a) (s_nm b)) A (rlitd 0.00000000001) 2)) q t
            = ofold (fun same i => let! a := oindex l i in let! b := oindex l (i - 1) in Ret (same && rapprox (rsub (s_nm a) (s_nm b)) A (rlitd 0.00000000001) 2)) q t).
  { induction q as [|k q IH]; intro t; [reflexivity|]. cbn [ofold]. rewrite !oindex_map. destruct (oindex l k) as [x| |]; cbn [obind]; [|reflexivity|reflexivity].
    destruct (oindex l (k - 1)) as [y| |]; cbn [obind]; [|reflexivity|reflexivity]. rewrite !H. apply IH. }
  rewrite E. reflexivity.
Qed.
Lemma new_scaled samples a f : vspd_new samples = Ret a -> 
  exists b, vspd_mul a (Fin f) = Ret b /\ VR f 0 a a b.
Proof.
  intro H. unfold vspd_new in H. destruct (calculate_shape samples) as [sh| |] eqn:E; try discriminate. injection H as <-.
  unfold vspd_mul, vspd_new. cbn [v_samples]. rewrite shape_of_nms by reflexivity. rewrite E. cbn [obind]. eexists. split; [reflexivity|].
  split; [|split; reflexivity]. cbn [v_samples]. clear E. induction samples as [|x l IH]; cbn [map]; constructor; [|exact IH].
  split; [split; reflexivity|]. cbn [s_v]. destruct (s_v x); cbn; [f_equal; ring|reflexivity].
Qed.
Lemma new_divided samples a f : f <> 0 -> vspd_new samples = Ret a -> 
  exists b, vspd_div a (Fin f) = Ret b /\ VR (/ f) 0 a a b.
Proof.
  intros Hf H. unfold vspd_new in H. destruct (calculate_shape samples) as [sh| |] eqn:E; try discriminate. injection H as <-.
  unfold vspd_div, vspd_new. cbn [v_samples]. rewrite shape_of_nms by reflexivity. rewrite E. cbn [obind]. eexists. split; [reflexivity|].
  split; [|split; reflexivity]. cbn [v_samples]. clear E. induction samples as [|x l IH]; cbn [map]; constructor; [|exact IH].
  split; [split; reflexivity|]. cbn [s_v]. destruct (s_v x) as [v|]; [|reflexivity]. rewrite x_div by exact Hf. cbn. f_equal. field. exact Hf.
Qed.
Definition scales (f : R) (a c : outcome (xyz xr)) : Prop :=
  (a = Panic /\ c = Panic) \/ (a = OutOfFuel /\ c = OutOfFuel) \/
  (exists p, a = Ret p /\ c = Ret (Xyz (rmul (Fin f) (xyz_x p)) (rmul (Fin f) (xyz_y p)) (rmul (Fin f) (xyz_z p)))).
Lemma scales_rel f debug fuel a b ill cm : VR f 0 a a b -> scales f (vspd_to_xyz debug fuel a ill cm) (vspd_to_xyz debug fuel b ill cm).
Proof.
  intro H. apply (to_xyz_spd f 0 debug fuel _ _ _ ill cm) in H. unfold scales.
  destruct (vspd_to_xyz debug fuel a ill cm) as [p| |], (vspd_to_xyz debug fuel b ill cm) as [[rx ry rz]| |]; cbn in H; try tauto.
  right. right. exists p. split; [reflexivity|]. destruct H as (H1 & H2 & H3). cbn [xyz_x xyz_y xyz_z] in *.
  destruct (xyz_x p), (xyz_y p), (xyz_z p); cbn in *; subst; apply f_equal; f_equal; leq; ring.
Qed.
Theorem C65_to_xyz_scales debug fuel samples a f ill cm : vspd_new samples = Ret a ->
  (exists b, vspd_mul a (Fin f) = Ret b /\ scales f (vspd_to_xyz debug fuel a ill cm) (vspd_to_xyz debug fuel b ill cm))
  /\ (f <> 0 -> exists b, vspd_div a (Fin f) = Ret b /\ scales (/ f) (vspd_to_xyz debug fuel a ill cm) (vspd_to_xyz debug fuel b ill cm)).
Proof.
  intro H. split; [|intro Hf].
  - destruct (new_scaled samples a f H) as (b & E & R). exists b. split; [exact E|apply scales_rel, R].
  - destruct (new_divided samples a f Hf H) as (b & E & R). exists b. split; [exact E|apply scales_rel, R].
Qed.

(* ---- C66 ---- *)
Theorem C66_illuminant_power debug fuel spd f l sh cm : f <> 0 ->
  vspd_to_xyz debug fuel spd (Vspd (map (fun s => Sample (s_nm s) (rmul (Fin f) (s_v s))) l) sh) cm = vspd_to_xyz debug fuel spd (Vspd l sh) cm.
Proof.
  intro Hf. apply (to_xyz_scaled f Hf). split; [|split; reflexivity]. cbn [v_samples]. induction l as [|x l IH]; cbn [map]; constructor; [|exact IH].
  split; [split; reflexivity|]. cbn [s_v]. destruct (s_v x); cbn; [f_equal; ring|reflexivity].
Qed.
Theorem C66_illuminant_operators debug fuel spd samples ill f cm : f <> 0 -> vspd_new samples = Ret ill ->
  (exists b, vspd_mul ill (Fin f) = Ret b /\ vspd_to_xyz debug fuel spd b cm = vspd_to_xyz debug fuel spd ill cm)
  /\ (exists b, vspd_div ill (Fin f) = Ret b /\ vspd_to_xyz debug fuel spd b cm = vspd_to_xyz debug fuel spd ill cm).
Proof.
  intros Hf H. split.
  - destruct (new_scaled samples ill f H) as (b & E & R). exists b. split; [exact E|apply (to_xyz_scaled f Hf), R].
  - destruct (new_divided samples ill f Hf H) as (b & E & R). exists b. split; [exact E|]. apply (to_xyz_scaled (/ f)); [apply Rinv_neq_0_compat, Hf|exact R].
Qed.

(* ---- C68 ---- *)
Theorem C68_nit_linear debug fuel al be l sh cm :
  let run F := spd_to_nit debug fuel (mix F l sh) cm in
  (run (fun x _ => x) = Panic /\ run (fun _ y => y) = Panic /\ run (fun x y => al * x + be * y) = Panic)
  \/ (run (fun x _ => x) = OutOfFuel /\ run (fun _ y => y) = OutOfFuel /\ run (fun x y => al * x + be * y) = OutOfFuel)
  \/ (exists p q, run (fun x _ => x) = Ret p /\ run (fun _ y => y) = Ret q /\ run (fun x y => al * x + be * y) = Ret (radd (rmul (Fin al) p) (rmul (Fin be) q))).
Proof.
  intro run. pose proof (nit_spd al be debug fuel _ _ _ cm (mix_rel al be l sh)) as H. fold (run (fun x _ => x)) (run (fun _ y => y)) (run (fun x y => al * x + be * y)) in H.
  destruct (run (fun x _ => x)) as [p| |], (run (fun _ y => y)) as [q| |], (run (fun x y => al * x + be * y)) as [r| |]; cbn in H; try tauto.
  right. right. exists p, q. apply LC_eq in H. subst. auto.
Qed.
(* a value is returned for an evenly spaced spectrum whose range meets that of an evenly spaced y_bar *)
Theorem C68_nit_defined_partial debug cm ys ye yh yvals yiv s e h vals : y_bar cm = uspd ys ye yh yvals yiv ->
  0 < yh -> (2 <= length yvals)%nat -> ye < ys + (INR (length yvals) + 1) * yh -> 0 < h -> (1 <= length vals)%nat ->
  Rmax s ys <= Rmin e ye -> countable (Rmax s ys) (Rmin e ye) h ->
  exists N v, forall fuel, (N <= fuel)%nat -> spd_to_nit debug fuel (uspd s e h vals (Uniform (Fin h))) cm = Ret (Fin v).
Proof.
  intros Ey Hyh Ly Hye Hh L Hab Hc.
  exists (Nat.max (npre (Rmax s ys) s h) (npost (Rmin e ye) e h)).
  exists (dotp vals (map snd (aligned ys ye yh yvals s e h)) * 683 / INR (length vals)). intros fuel Hf. unfold spd_to_nit.
  rewrite Ey. unfold uspd at 1 2. cbn [v_shape]. fold (shape s e h). rewrite align_even by (assumption || lia). cbn [obind].
  unfold uspd, v_values. cbn [v_samples]. rewrite !vals_fin, even_vals. rewrite zip_mul_fin, fsum_fin. 
  replace (length (FinSamps (even s h vals))) with (length vals) by (unfold FinSamps; rewrite map_length, even_length; reflexivity).
  unfold of_usize. assert (P : INR (length vals) <> 0) by (apply not_0_INR; lia). rewrite x_litd, x_mul, x_of_Z, <- INR_IZR_INZ, x_div by exact P.
  f_equal. f_equal. f_equal. f_equal; [|clear; q2r; lra]. 
  generalize (map snd (aligned ys ye yh yvals s e h)). clear. induction vals as [|x l IH]; intros [|y m]; try reflexivity. cbn. unfold rsum in IH. rewrite <- IH. reflexivity.
Qed.
(* an unevenly spaced spectrum never gets a value, whatever its range and whatever the CMF *)
Theorem C68_varying_never_returns debug fuel cm l s e v : spd_to_nit debug fuel (Vspd l (SpdShape s e Varying)) cm <> Ret v.
Proof.
  unfold spd_to_nit, vspd_align, vspd_interpolate. cbn [v_shape sh_interval sh_start sh_end].
  destruct (sprague_new (y_bar cm)) as [t| |]; cbn [obind]; discriminate.
Qed.
End P.

(* so "returns a value for every spectrum whose range overlaps" fails, here with both made by VSPD::new *)
Theorem C68_defined_refuted : exists (cm : cmf xr) (spd : vspd xr),
  (exists samples, @vspd_new xr (@xr_ops f64_const) samples = Ret spd) /\ (exists samples, @vspd_new xr (@xr_ops f64_const) samples = Ret (y_bar cm))
  /\ v_shape spd = SpdShape (Fin 400) (Fin 430) Varying /\ v_shape (y_bar cm) = shape 400 430 10
  /\ forall debug fuel v, @spd_to_nit xr (@xr_ops f64_const) debug fuel spd cm <> Ret v.
Proof.
  pose proof f64_const_ok as OK.
  destruct (C48_grid_uniform (K := f64_const) 400 10 [1; 2; 3; 4] OK ltac:(cbn; lia)) as (y & Ey & Sy).
  set (l := FinSamps [(400, 1); (405, 1); (420, 1); (430, 1)]).
  exists (Cmf y y y), (Vspd l (SpdShape (Fin 400) (Fin 430) Varying)).
  split; [|split; [eexists; exact Ey|split; [reflexivity|split; [|]]]].
  - exists l. unfold vspd_new, calculate_shape. cbn [length l FinSamps map Nat.ltb Nat.leb first_opt last_opt unwrap obind FinSamp].
    rewrite (calculate_interval_spec l (Sample Bad Bad)) by (cbn; lia). cbn [obind].
    replace (forallb _ _) with false; [reflexivity|]. cbn [length l FinSamps map Nat.sub seq forallb]. symmetry. apply andb_false_iff. right. apply andb_false_iff. left.
    unfold gap_ok, gap. cbn. unfold margin_approx. apply Rleb_false. unfold Rabs. destruct Rcase_abs; q2r; lra.
  - cbn [y_bar]. rewrite Sy. unfold shape. cbn. leq; lra.
  - intros. apply C68_varying_never_returns.
Qed.
