(* Model of /repo/src/uplifting.rs and of the tabulated spectra built with vspd! and
   from_values.  vspd!{nm => v, ...} is VSPD::new of the samples in order (macros.rs 1-15). *)
From Coq Require Import List ZArith QArith.
From Verif Require Import Outcome RealOps MathModel ColorModel InterpModel VspdModel.
From Verif Require Import DataIllum DataCmf DataUplift DataSpd DataChecker.
Import ListNotations.
Open Scope num_scope.

Section Uplift.
Context {T : Type} {O : RealOps T}.

(* the vspd! macro applied to literal pairs *)
Definition vspd_table (l : list (Q * Q)) : outcome (vspd T) :=
  vspd_new (map (fun '(nm, v) => Sample (rlitd nm) (rlitd v)) l).

(* illuminant.rs 80-489 *)
Definition spd_D50 := vspd_table data_D50.
Definition spd_D55 := vspd_table data_D55.
Definition spd_D60 := vspd_table data_D60.
Definition spd_D65 := vspd_table data_D65.

(* cmf.rs 35-1457 *)
Definition cie_1931_2_degree : outcome (cmf T) :=
  let! x := vspd_table data_x_bar in
  let! y := vspd_table data_y_bar in
  let! z := vspd_table data_z_bar in
  Ret (Cmf x y z).

(* uplifting.rs 51-312 *)
Definition my_shape : spd_shape T := shape_new (rlitd 380.0) (rlitd 780.0) (rlitd 5.0).
Definition my_basis : outcome (vspd T * vspd T * vspd T) :=
  let! r := vspd_from_values my_shape (map rlitd data_basis_red) in
  let! g := vspd_from_values my_shape (map rlitd data_basis_green) in
  let! b := vspd_from_values my_shape (map rlitd data_basis_blue) in
  Ret (r, g, b).

(* uplifting.rs 314-572 *)
Definition my_red := vspd_from_values my_shape (map rlitd data_MY_RED).
Definition my_green := vspd_from_values my_shape (map rlitd data_MY_GREEN).
Definition my_blue := vspd_from_values my_shape (map rlitd data_MY_BLUE).

(* uplifting.rs 573-831 *)
Definition smits_shape : spd_shape T := shape_new (rlitd 380.0) (rlitd 720.0) (rlitd 10.9375).
Definition smits_white := vspd_from_values smits_shape (map rlitd data_SMITS_WHITE).
Definition smits_cyan := vspd_from_values smits_shape (map rlitd data_SMITS_CYAN).
Definition smits_magenta := vspd_from_values smits_shape (map rlitd data_SMITS_MAGENTA).
Definition smits_yellow := vspd_from_values smits_shape (map rlitd data_SMITS_YELLOW).
Definition smits_red := vspd_from_values smits_shape (map rlitd data_SMITS_RED).
Definition smits_green := vspd_from_values smits_shape (map rlitd data_SMITS_GREEN).
Definition smits_blue := vspd_from_values smits_shape (map rlitd data_SMITS_BLUE).

(* uplifting.rs 10-15; collect() is VSPD::from_iter, i.e. VSPD::new (vspd.rs 739-757) *)
Definition uplift_my (rgb : rgbf T) : outcome (vspd T) :=
  let! basis := my_basis in
  let '(my_r, my_g, my_b) := basis in
  vspd_new
    (map (fun '((nm, w_r), (w_g, w_b)) =>
            Sample nm (w_r * rgb_r rgb + w_g * rgb_g rgb + w_b * rgb_b rgb))
         (combine (combine (v_wavelengths my_r) (v_values my_r))
                  (combine (v_values my_g) (v_values my_b)))).

(* examples/hero_wavelength_sampling.rs 34-45: the four wavelengths derived from one sample
   x of [0, 1) *)
Definition hero_lambda (x : T) : list T :=
  let spd_start := rlitd 360.0 in
  let spd_end := rlitd 780.0 in
  let range := spd_end - spd_start in
  let h := spd_start + x * range in
  map (fun l => if l >=? spd_end then l - range else l)
    [h; h + range / rlitd 4.0; h + rlitd 2.0 * range / rlitd 4.0; h + rlitd 3.0 * range / rlitd 4.0].

End Uplift.
