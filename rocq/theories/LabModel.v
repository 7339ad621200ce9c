(* Model of /repo/src/lab.rs *)
From Coq Require Import List ZArith QArith.
From Verif Require Import Outcome RealOps MathModel ColorModel.
Open Scope num_scope.

(* lab.rs 10-20 *)
Record lab (T : Type) : Type := Lab { lab_L : T; lab_a : T; lab_b : T }.
Arguments Lab {T} _ _ _.
Arguments lab_L {T} _.
Arguments lab_a {T} _.
Arguments lab_b {T} _.

Section LabSec.
Context {T : Type} {O : RealOps T}.

(* lab.rs 44-45, 81-82 *)
Definition lab_epsilon : T := rlit 216.0 / rlit 24389.0.
Definition lab_kappa : T := rlit 24389.0 / rlit 27.0.

(* lab.rs 47-51, 53-57, 59-63: the same expression for the three channels *)
Definition lab_f (t : T) : T :=
  if t >? lab_epsilon then rpowf t (rlit 1.0 / rlit 3.0)
  else (lab_kappa * t + rlit 16.0) / rlit 116.0.

(* lab.rs 36-66 *)
Definition xyz_to_lab (c ref_white : xyz T) : lab T :=
  let xyz_r := xyz_div c ref_white in
  let f_x := lab_f (xyz_x xyz_r) in
  let f_y := lab_f (xyz_y xyz_r) in
  let f_z := lab_f (xyz_z xyz_r) in
  Lab (rlit 116.0 * f_y - rlit 16.0) (rlit 500.0 * (f_x - f_y)) (rlit 200.0 * (f_y - f_z)).

(* lab.rs 74-101 *)
Definition lab_to_xyz (c : lab T) (ref_white : xyz T) : xyz T :=
  let f_y := (lab_L c + rlit 16.0) / rlit 116.0 in
  let f_z := f_y - (lab_b c / rlit 200.0) in
  let f_x := (lab_a c / rlit 500.0) + f_y in
  let f_x3 := rpowi f_x 3 in
  let x_r := if f_x3 >? lab_epsilon then f_x3
             else ((rlit 116.0 * f_x) - rlit 16.0) / lab_kappa in
  let y_r := if lab_L c >? (lab_kappa * lab_epsilon)
             then rpowi ((lab_L c + rlit 16.0) / rlit 116.0) 3
             else lab_L c / lab_kappa in
  let f_z3 := rpowi f_z 3 in
  let z_r := if f_z3 >? lab_epsilon then f_z3
             else ((rlit 116.0 * f_z) - rlit 16.0) / lab_kappa in
  xyz_mul (Xyz x_r y_r z_r) ref_white.

(* lab.rs 129-134 *)
Definition delta_E_1976 (c1 c2 : lab T) : T :=
  rsqrt (rpowi (lab_L c1 - lab_L c2) 2 + rpowi (lab_a c1 - lab_a c2) 2
         + rpowi (lab_b c1 - lab_b c2) 2).

(* lab.rs 165-168: hue angle in [0,360) from atan2 *)
Definition de_hue (b a_p : T) : T :=
  let h_p := rto_degrees (ratan2 b a_p) in
  if h_p <? rlit 0.0 then h_p + rlit 360.0 else h_p.

(* lab.rs 145-223 *)
Definition delta_E_2000 (c1 c2 : lab T) : T :=
  let L_1 := lab_L c1 in
  let a_1 := lab_a c1 in
  let b_1 := lab_b c1 in
  let L_2 := lab_L c2 in
  let a_2 := lab_a c2 in
  let b_2 := lab_b c2 in
  let C_1_ab := rhypot a_1 b_1 in
  let C_2_ab := rhypot a_2 b_2 in
  let C_bar_ab := (C_1_ab + C_2_ab) / rlit 2.0 in
  let G := rlit 0.5 * (rlit 1.0 - rsqrt (rpowi C_bar_ab 7 / (rpowi C_bar_ab 7 + rpowi (rlit 25.0) 7))) in
  let a_p_1 := (rlit 1.0 + G) * a_1 in
  let a_p_2 := (rlit 1.0 + G) * a_2 in
  let C_p_1 := rhypot a_p_1 b_1 in
  let C_p_2 := rhypot a_p_2 b_2 in
  let h_p_1 := de_hue b_1 a_p_1 in
  let h_p_2 := de_hue b_2 a_p_2 in
  let delta_L_p := L_2 - L_1 in
  let delta_C_p := C_p_2 - C_p_1 in
  let delta_h_p := h_p_2 - h_p_1 in
  let delta_h_p :=
    if C_p_1 * C_p_2 =? rlit 0.0 then rlit 0.0
    else if rabs delta_h_p <=? rlit 180.0 then delta_h_p
    else if delta_h_p >? rlit 180.0 then delta_h_p - rlit 360.0
    else delta_h_p + rlit 360.0 in
  let delta_H_p := rlit 2.0 * rsqrt (C_p_1 * C_p_2) * rsin (rto_radians (delta_h_p / rlit 2.0)) in
  let L_bar_p := (L_1 + L_2) / rlit 2.0 in
  let C_bar_p := (C_p_1 + C_p_2) / rlit 2.0 in
  let h_1_m_h_2 := rabs (h_p_1 - h_p_2) in
  let h_bar_p :=
    if C_p_1 * C_p_2 =? rlit 0.0 then h_p_1 + h_p_2
    else if h_1_m_h_2 <=? rlit 180.0 then (h_p_1 + h_p_2) / rlit 2.0
    else if (h_p_1 + h_p_2) <? rlit 360.0 then (h_p_1 + h_p_2 + rlit 360.0) / rlit 2.0
    else (h_p_1 + h_p_2 - rlit 360.0) / rlit 2.0 in
  let Tt := rlit 1.0 - rlit 0.17 * rcos (rto_radians (h_bar_p - rlit 30.0))
            + rlit 0.24 * rcos (rto_radians (rlit 2.0 * h_bar_p))
            + rlit 0.32 * rcos (rto_radians (rlit 3.0 * h_bar_p + rlit 6.0))
            - rlit 0.20 * rcos (rto_radians (rlit 4.0 * h_bar_p - rlit 63.0)) in
  let delta_theta := rlit 30.0 * rexp (- sqr ((h_bar_p - rlit 275.0) / rlit 25.0)) in
  let R_C := rlit 2.0 * rsqrt (rpowi C_bar_p 7 / (rpowi C_bar_p 7 + rpowi (rlit 25.0) 7)) in
  let S_L := rlit 1.0 + (rlit 0.015 * rpowi (L_bar_p - rlit 50.0) 2)
                        / rsqrt (rlit 20.0 + rpowi (L_bar_p - rlit 50.0) 2) in
  let S_C := rlit 1.0 + rlit 0.045 * C_bar_p in
  let S_H := rlit 1.0 + rlit 0.015 * C_bar_p * Tt in
  let R_T := - rsin (rto_radians (rlit 2.0 * delta_theta)) * R_C in
  let K_L := rlit 1.0 in
  let K_C := rlit 1.0 in
  let K_H := rlit 1.0 in
  rsqrt (sqr (delta_L_p / (K_L * S_L))
         + sqr (delta_C_p / (K_C * S_C))
         + sqr (delta_H_p / (K_H * S_H))
         + R_T * ((delta_C_p / (K_C * S_C)) * (delta_H_p / (K_H * S_H)))).

End LabSec.
