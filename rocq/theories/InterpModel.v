(* Model of /repo/src/interpolation.rs, with the VSPD data types of /repo/src/vspd.rs it uses *)
From Coq Require Import List ZArith QArith.
From Verif Require Import Outcome RealOps MathModel ColorModel.
Import ListNotations.
Open Scope num_scope.

(* vspd.rs 118-123 *)
Record sample (T : Type) : Type := Sample { s_nm : T; s_v : T }.
Arguments Sample {T} _ _.
Arguments s_nm {T} _.
Arguments s_v {T} _.

(* vspd.rs 32-39 *)
Inductive interval (T : Type) : Type :=
| Uniform (i : T)
| Varying.
Arguments Uniform {T} i.
Arguments Varying {T}.

(* vspd.rs 18-30 *)
Record spd_shape (T : Type) : Type :=
  SpdShape { sh_start : T; sh_end : T; sh_interval : interval T }.
Arguments SpdShape {T} _ _ _.
Arguments sh_start {T} _.
Arguments sh_end {T} _.
Arguments sh_interval {T} _.

(* vspd.rs 156-160 *)
Record vspd (T : Type) : Type := Vspd { v_samples : list (sample T); v_shape : spd_shape T }.
Arguments Vspd {T} _ _.
Arguments v_samples {T} _.
Arguments v_shape {T} _.

(* Iterator::position *)
Fixpoint position {A : Type} (p : A -> bool) (l : list A) : option nat :=
  match l with
  | [] => None
  | a :: l' => if p a then Some 0%nat
               else match position p l' with Some k => Some (S k) | None => None end
  end.

(* slice::first, slice::last *)
Definition first_opt {A : Type} (l : list A) : option A :=
  match l with [] => None | a :: _ => Some a end.
Fixpoint last_opt {A : Type} (l : list A) : option A :=
  match l with
  | [] => None
  | [a] => Some a
  | _ :: l' => last_opt l'
  end.

Section Interp.
Context {T : Type} {O : RealOps T}.

(* Iterator::sum for floats: left to right from zero *)
Definition fsum (l : list T) : T := fold_left radd l (rlitd 0.0).

(* l.iter().zip(m.iter()).map(|(a, b)| a * b) *)
Definition zip_mul (l m : list T) : list T :=
  map (fun '(a, b) => a * b) (combine l m).

(* vspd.rs 241-298: accessors *)
Definition v_start (s : vspd T) : T := sh_start (v_shape s).
Definition v_end (s : vspd T) : T := sh_end (v_shape s).
Definition v_interval (s : vspd T) : interval T := sh_interval (v_shape s).
Definition v_values (s : vspd T) : list T := map s_v (v_samples s).
Definition v_wavelengths (s : vspd T) : list T := map s_nm (v_samples s).
Definition v_first (s : vspd T) : outcome (sample T) := unwrap (first_opt (v_samples s)).
Definition v_last (s : vspd T) : outcome (sample T) := unwrap (last_opt (v_samples s)).

(* interpolation.rs 49-60 (f64; the f32 table on 23-34 is identical) *)
Definition coeff_c0 : list T :=
  [rlitd 884.0; - rlitd 1960.0; rlitd 3033.0; - rlitd 2648.0; rlitd 1080.0; - rlitd 180.0].
Definition coeff_c1 : list T :=
  [rlitd 508.0; - rlitd 540.0; rlitd 488.0; - rlitd 367.0; rlitd 144.0; - rlitd 24.0].
Definition coeff_c2 : list T :=
  [- rlitd 24.0; rlitd 144.0; - rlitd 367.0; rlitd 488.0; - rlitd 540.0; rlitd 508.0].
Definition coeff_c3 : list T :=
  [- rlitd 180.0; rlitd 1080.0; - rlitd 2648.0; rlitd 3033.0; - rlitd 1960.0; rlitd 884.0].

(* interpolation.rs 61-70 (and 35-44): the six polynomial coefficients of segment i.
   All indices are slice accesses, i - 2 a usize subtraction. *)
Definition coeff_a (r : list T) (i : nat) : outcome (list T) :=
  let! im2 := usize_sub i 2 in
  let! im1 := usize_sub i 1 in
  let! r0 := oindex r im2 in
  let! r1 := oindex r im1 in
  let! r2 := oindex r i in
  let! r3 := oindex r (i + 1) in
  let! r4 := oindex r (i + 2) in
  let! r5 := oindex r (i + 3) in
  let a0p := r2 in
  let a1p := (rlitd 2.0 * r0 - rlitd 16.0 * r1 + rlitd 16.0 * r3 - rlitd 2.0 * r4) / rlitd 24.0 in
  let a2p := (- r0 + rlitd 16.0 * r1 - rlitd 30.0 * r2 + rlitd 16.0 * r3 - r4) / rlitd 24.0 in
  let a3p := (- rlitd 9.0 * r0 + rlitd 39.0 * r1 - rlitd 70.0 * r2 + rlitd 66.0 * r3
              - rlitd 33.0 * r4 + rlitd 7.0 * r5) / rlitd 24.0 in
  let a4p := (rlitd 13.0 * r0 - rlitd 64.0 * r1 + rlitd 126.0 * r2 - rlitd 124.0 * r3
              + rlitd 61.0 * r4 - rlitd 12.0 * r5) / rlitd 24.0 in
  let a5p := (- rlitd 5.0 * r0 + rlitd 25.0 * r1 - rlitd 50.0 * r2 + rlitd 50.0 * r3
              - rlitd 25.0 * r4 + rlitd 5.0 * r5) / rlitd 24.0 in
  Ret [a0p; a1p; a2p; a3p; a4p; a5p].

(* interpolation.rs 3-9 *)
Record sprague : Type := Sprague { sp_x : list T; sp_y : list T }.

(* interpolation.rs 77-122 *)
Definition sprague_new (spd : vspd T) : outcome sprague :=
  let! first := v_first spd in
  let first := s_nm first in
  let! last := v_last spd in
  let last := s_nm last in
  let! second := oindex (v_samples spd) 1 in
  let interval := s_nm second - first in
  let x1 := first - interval * rlitd 2.0 in
  let x2 := first - interval in
  let x3 := last + interval in
  let x4 := last + interval * rlitd 2.0 in
  let x := [x1; x2] ++ map s_nm (v_samples spd) ++ [x3; x4] in
  let vs := map s_v (v_samples spd) in
  let y1 := fsum (zip_mul coeff_c0 vs) in
  let y2 := fsum (zip_mul coeff_c1 vs) in
  let y3 := fsum (zip_mul (rev coeff_c2) (rev vs)) in
  let y4 := fsum (zip_mul (rev coeff_c3) (rev vs)) in
  let y := [y1 / rlitd 209.0; y2 / rlitd 209.0] ++ vs ++ [y3 / rlitd 209.0; y4 / rlitd 209.0] in
  Ret (Sprague x y).

(* interpolation.rs 125: the segment index.  [position(..).unwrap() - 1] underflows when the
   position is 0: a panic when overflow checks are on ([debug] = true), usize::MAX otherwise,
   which [.max(2).min(len - 4)] turns into len - 4. *)
Definition sprague_index (debug : bool) (xs : list T) (x : T) : outcome nat :=
  let! p := unwrap (position (fun t => x <? t) xs) in
  let! hi := usize_sub (length xs) 4 in
  match p with
  | 0%nat => if debug then Panic else Ret hi
  | S i => Ret (Nat.min (Nat.max i 2) hi)
  end.

(* interpolation.rs 124-131 *)
Definition sprague_evaluate (debug : bool) (sp : sprague) (x : T) : outcome T :=
  let! i := sprague_index debug (sp_x sp) x in
  let! xi := oindex (sp_x sp) i in
  let! xi1 := oindex (sp_x sp) (i + 1) in
  let dx := (x - xi) / (xi1 - xi) in
  let! a := coeff_a (sp_y sp) i in
  match a with
  | [a0; a1; a2; a3; a4; a5] =>
      Ret (a0 + a1 * dx + a2 * rpowi dx 2 + a3 * rpowi dx 3 + a4 * rpowi dx 4 + a5 * rpowi dx 5)
  | _ => Panic
  end.

(* interpolation.rs 144-150 *)
Definition extrapolator_evaluate (spd : vspd T) (x : T) : outcome T :=
  let! f := v_first spd in
  let! l := v_last spd in
  if x <? s_nm f then Ret (s_v f) else Ret (s_v l).

(* interpolation.rs 162-172 *)
Definition linear_evaluate (spd : vspd T) (x : T) : outcome T :=
  let! f := v_first spd in
  if x <=? s_nm f then Ret (s_v f)
  else
    let! l := v_last spd in
    if x >=? s_nm l then Ret (s_v l)
    else
      let! p := unwrap (position (fun s => x <? s_nm s) (v_samples spd)) in
      let! i := usize_sub p 1 in
      let! si := oindex (v_samples spd) i in
      let! si1 := oindex (v_samples spd) (i + 1) in
      let d := (x - s_nm si) / (s_nm si1 - s_nm si) in
      Ret ((rlitd 1.0 - d) * s_v si + d * s_v si1).

End Interp.
Arguments sprague T : clear implicits.
