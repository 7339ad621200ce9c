(* Model of the chromaticity part of /repo/src/illuminant.rs (mod xy) *)
From Coq Require Import List ZArith QArith.
From Verif Require Import Outcome RealOps MathModel ColorModel.
Open Scope num_scope.

Section Illum.
Context {T : Type} {O : RealOps T}.

(* illuminant.rs 10-39 (f64 constants) *)
Definition xy_D50 : xyy T := Xyy (rlitd 0.34570) (rlitd 0.35850) (rlitd 1.0).
Definition xy_D55 : xyy T := Xyy (rlitd 0.33243) (rlitd 0.34744) (rlitd 1.0).
Definition xy_D60 : xyy T := Xyy (rlitd 0.321626242047397) (rlitd 0.337736995955436) (rlitd 1.0).
Definition xy_D65 : xyy T := Xyy (rlitd 0.31270) (rlitd 0.32900) (rlitd 1.0).
Definition xy_DCI_P3 : xyy T := Xyy (rlitd 0.31400) (rlitd 0.35100) (rlitd 1.0).
Definition xy_ACES : xyy T := Xyy (rlitd 0.32168) (rlitd 0.33767) (rlitd 1.0).

(* illuminant.rs 54, 58 *)
Definition cct_y (xd : T) : T :=
  - rlit 3.0 * xd * xd + rlit 2.870 * xd - rlit 0.275.

(* illuminant.rs 44-61; None is Err(TemperatureOutOfBound).
   The literals are -4.607e9, 2.9678e6, 0.09911e3, -2.0064e9, 1.9018e6, 0.24748e3. *)
Definition cct (t : T) : option (xyy T) :=
  let t2 := t * t in
  let t3 := t2 * t in
  if (t <? rlit 4000.0) || (t >? rlit 25000.0) then None
  else if t <=? rlit 7000.0 then
    let xd := - rlit 4607000000.0 / t3 + rlit 2967800.0 / t2 + rlit 99.11 / t + rlit 0.244063 in
    Some (Xyy xd (cct_y xd) (rlit 1.0))
  else
    let xd := - rlit 2006400000.0 / t3 + rlit 1901800.0 / t2 + rlit 247.48 / t + rlit 0.237040 in
    Some (Xyy xd (cct_y xd) (rlit 1.0)).

End Illum.
