(* Model of /repo/examples/hero_wavelength_sampling.rs.  The numbers drawn from rand are an argument; printing
   is not modelled: what is printed is the result. *)
From Coq Require Import List ZArith QArith.
From Verif Require Import Outcome RealOps MathModel ColorModel LabModel AdaptModel IllumModel InterpModel VspdModel UpliftModel.
Import ListNotations.
Open Scope num_scope.

Section Hero.
Context {T : Type} {O : RealOps T}.

(* 11-15: the interpolated colour matching functions and the illuminant *)
Record hero_tables : Type := HeroTables { ht_x : sprague T; ht_y : sprague T; ht_z : sprague T; ht_d65 : sprague T }.
Definition hero_tables_new : outcome hero_tables :=
  let! cm := cie_1931_2_degree in
  let! x_bar := sprague_new (x_bar cm) in
  let! y_bar := sprague_new (y_bar cm) in
  let! z_bar := sprague_new (z_bar cm) in
  let! d65 := spd_D65 in
  let! d65 := sprague_new d65 in
  Ret (HeroTables x_bar y_bar z_bar d65).

(* 49-55, 112-121, 180-189: one wavelength; [rho] is the reflectance at it.  State: (xyz, xyz_w) *)
Definition hero_add (debug : bool) (t : hero_tables) (rho : T -> outcome T) (s : xyz T * xyz T) (l : T) : outcome (xyz T * xyz T) :=
  let! d := sprague_evaluate debug (ht_d65 t) l in
  let! r := rho l in
  let e := d * r in
  let! x := sprague_evaluate debug (ht_x t) l in
  let! y := sprague_evaluate debug (ht_y t) l in
  let! z := sprague_evaluate debug (ht_z t) l in
  Ret (xyz_add (fst s) (Xyz (x * e) (y * e) (z * e)), xyz_add (snd s) (Xyz (x * d) (y * d) (z * d))).

(* 26-59, 92-125, 160-193: n is NUM_SAMPLES, rng i the number drawn for sample i *)
Definition hero_xyz (debug : bool) (n : nat) (t : hero_tables) (rho : T -> outcome T) (rng : nat -> T) : outcome (xyz T) :=
  let! s := ofold (fun s i =>
      let x := (rof_Z (Z.of_nat i) + rng i) / rof_Z (Z.of_nat n) in
      ofold (hero_add debug t rho) (hero_lambda x) s)
    (seq 0 n) (xyz_from_scalar (rlitd 0.0), xyz_from_scalar (rlitd 0.0)) in
  Ret (xyz_div (fst s) (xyz_from_scalar (rof_Z (Z.of_nat n)))).

Definition hero_shape : spd_shape T := shape_new (rlitd 360.0) (rlitd 780.0) (rlitd 1.0).

(* 24: the reflectance of a swatch *)
Definition rho_spectral (debug : bool) (fuel : nat) (spd : vspd T) : outcome (T -> outcome T) :=
  let! a := vspd_align debug fuel spd hero_shape in
  let! sp := sprague_new a in
  Ret (sprague_evaluate debug sp).
(* 113, 181: the reflectance lifted from a colour; w are the evaluators of the three basis spectra *)
Definition rho_mixed (w : (T -> outcome T) * (T -> outcome T) * (T -> outcome T)) (rgb : rgbf T) (l : T) : outcome T :=
  let '(wr, wg, wb) := w in
  let! r := wr l in
  let! g := wg l in
  let! b := wb l in
  Ret (r * rgb_r rgb + g * rgb_g rgb + b * rgb_b rgb).
(* 83-85 *)
Definition basis_sprague (debug : bool) (fuel : nat) : outcome ((T -> outcome T) * (T -> outcome T) * (T -> outcome T)) :=
  let! r := my_red in
  let! r := rho_spectral debug fuel r in
  let! g := my_green in
  let! g := rho_spectral debug fuel g in
  let! b := my_blue in
  let! b := rho_spectral debug fuel b in
  Ret (r, g, b).
(* 151-153 *)
Definition basis_linear : outcome ((T -> outcome T) * (T -> outcome T) * (T -> outcome T)) :=
  let! r := my_red in
  let! g := my_green in
  let! b := my_blue in
  Ret (linear_evaluate r, linear_evaluate g, linear_evaluate b).

(* 61-69, 128-136, 195-203: the colour difference to the reference *)
Definition hero_dE (debug : bool) (fuel : nat) (cat : mat33 T) (spd : vspd T) (c : xyz T) : outcome T :=
  let! a := vspd_align debug fuel spd astm_e308 in
  let! d65 := spd_D65 in
  let! cm := cie_1931_2_degree in
  let! xyz_ref := vspd_to_xyz debug fuel a d65 cm in
  let w := xyz_from_chromaticity xy_D50 in
  Ret (delta_E_2000 (xyz_to_lab (mat_mul_xyz cat c) w) (xyz_to_lab (mat_mul_xyz cat xyz_ref) w)).

(* 19-21 and 71-78: minimum, maximum and mean over the swatches *)
Definition hero_stats (dEs : list T) : T * T * T :=
  let '(mn, mx, mean) := fold_left (fun '(mn, mx, mean) dE => (rmin mn dE, rmax mx dE, mean + dE)) dEs (rmax_value, rmin_value, rlitd 0.0) in
  (mn, mx, mean / rlitd 24.0).

(* 22-78, 87-145, 155-212: one block; sw lists for each name the spectrum and the reflectance to sample *)
Definition hero_block (debug : bool) (fuel n : nat) (t : hero_tables) (cat : mat33 T)
    (sw : list (vspd T * outcome (T -> outcome T))) (rng : nat -> nat -> T) : outcome (T * T * T) :=
  let! dEs := omap (fun '(k, (spd, rho)) =>
      let! rho := rho in
      let! c := hero_xyz debug n t rho (rng k) in
      hero_dE debug fuel cat spd c)
    (combine (seq 0 (length sw)) sw) in
  Ret (hero_stats dEs).

(* 10-213; spds and rgbs are SPECTRAL and SRGB_LINEAR in the order of NAMES *)
Definition hero_main (debug : bool) (fuel n : nat) (spds : list (vspd T)) (rgbs : list (rgbf T)) (rng1 rng2 rng3 : nat -> nat -> T)
    : outcome ((T * T * T) * (T * T * T) * (T * T * T)) :=
  let! t := hero_tables_new in
  let! cat := cat02 (xyz_from_chromaticity xy_D65) (xyz_from_chromaticity xy_D50) in
  let! b1 := hero_block debug fuel n t cat (map (fun spd => (spd, rho_spectral debug fuel spd)) spds) rng1 in
  let! w := basis_sprague debug fuel in
  let! b2 := hero_block debug fuel n t cat (map (fun '(spd, rgb) => (spd, Ret (rho_mixed w rgb))) (combine spds rgbs)) rng2 in
  let! w := basis_linear in
  let! b3 := hero_block debug fuel n t cat (map (fun '(spd, rgb) => (spd, Ret (rho_mixed w rgb))) (combine spds rgbs)) rng3 in
  Ret (b1, b2, b3).

End Hero.
Arguments hero_tables T : clear implicits.
