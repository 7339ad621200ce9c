(* Model of /repo/src/vspd.rs, /repo/src/photometry.rs and the CMF type of /repo/src/cmf.rs.
   The source fixes f64; the model keeps the number type generic.  Functions with [while]
   loops take [fuel], functions reaching the Sprague index arithmetic take [debug]
   (overflow checks on). *)
From Coq Require Import List ZArith QArith.
From Verif Require Import Outcome RealOps MathModel ColorModel InterpModel.
Import ListNotations.
Open Scope num_scope.

(* largest usize, for [as usize] (64-bit targets) *)
Definition usize_max : Z := 18446744073709551615.

Section VspdSec.
Context {T : Type} {O : RealOps T}.

(* [x as usize] for a float x: truncating, saturating, NaN to 0 *)
Definition as_usize (x : T) : nat := Z.to_nat (ras_uint usize_max x).
(* [n as f64] / T::from(n) for a usize n *)
Definition of_usize (n : nat) : T := rof_Z (Z.of_nat n).

(* derived PartialEq on Interval and SpdShape, vspd.rs 18, 32 *)
Definition interval_eqb (a b : interval T) : bool :=
  match a, b with
  | Uniform x, Uniform y => x =? y
  | Varying, Varying => true
  | _, _ => false
  end.
Definition shape_eqb (a b : spd_shape T) : bool :=
  (sh_start a =? sh_start b) && (sh_end a =? sh_end b)
  && interval_eqb (sh_interval a) (sh_interval b).

(* vspd.rs 57-63 *)
Definition shape_new (start end_ i : T) : spd_shape T := SpdShape start end_ (Uniform i).
(* vspd.rs 65-71 *)
Definition astm_e308 : spd_shape T :=
  SpdShape (rlit 360.0) (rof_Z 780) (Uniform (rlit 1.0)).

(* vspd.rs 73-84 and 97-111: the sequence of wavelengths produced *)
Definition shape_iter (sh : spd_shape T) : outcome (list T) :=
  match sh_interval sh with
  | Varying => Panic                                   (* unreachable!() *)
  | Uniform i =>
      let! n := unwrap (rto_usize ((sh_end sh - sh_start sh) / i)) in
      Ret (map (fun k => sh_start sh + of_usize k * i) (seq 0 (Z.to_nat n + 1)))
  end.

(* vspd.rs 437-451.  The loop runs i = 1 .. len-2 and compares samples i and i-1. *)
Definition calculate_interval (samples : list (sample T)) : outcome (interval T) :=
  if Nat.ltb (length samples) 2 then Panic
  else
    let! s1 := oindex samples 1 in
    let! s0 := oindex samples 0 in
    let assumed := s_nm s1 - s_nm s0 in
    let! same := ofold (fun same i =>
      let! a := oindex samples i in
      let! b := oindex samples (i - 1) in
      Ret (same && rapprox (s_nm a - s_nm b) assumed (rlitd 0.00000000001) 2))
      (seq 1 (length samples - 1 - 1)) true in
    Ret (if same then Uniform assumed else Varying).

(* vspd.rs 453-463 *)
Definition calculate_shape (samples : list (sample T)) : outcome (spd_shape T) :=
  if Nat.ltb (length samples) 2 then Panic
  else
    let! f := unwrap (first_opt samples) in
    let! l := unwrap (last_opt samples) in
    let! i := calculate_interval samples in
    Ret (SpdShape (s_nm f) (s_nm l) i).

(* vspd.rs 195-198 *)
Definition vspd_new (samples : list (sample T)) : outcome (vspd T) :=
  let! sh := calculate_shape samples in
  Ret (Vspd samples sh).

(* vspd.rs 204-211 *)
Definition vspd_constant (sh : spd_shape T) (value : T) : outcome (vspd T) :=
  let! nms := shape_iter sh in
  let samples := map (fun nm => Sample nm value) nms in
  if Nat.ltb (length samples) 2 then Panic else Ret (Vspd samples sh).

(* vspd.rs 217-238 *)
Definition vspd_from_values (sh : spd_shape T) (values : list T) : outcome (vspd T) :=
  if Nat.ltb (length values) 2 then Panic
  else
    match sh_interval sh with
    | Varying => Panic
    | Uniform i =>
        let num := S (as_usize ((sh_end sh - sh_start sh) / i)) in
        if negb (Nat.eqb num (length values)) then Panic
        else
          let! nms := shape_iter sh in
          Ret (Vspd (map (fun '(nm, v) => Sample nm v) (combine nms values)) sh)
    end.

(* vspd.rs 182-188 *)
Definition sample_eqb (a b : sample T) : bool := (s_nm a =? s_nm b) && (s_v a =? s_v b).
Definition vspd_eqb (a b : vspd T) : bool :=
  Nat.eqb (length (v_samples a)) (length (v_samples b))
  && shape_eqb (v_shape a) (v_shape b)
  && forallb (fun '(l, r) => sample_eqb l r) (combine (v_samples a) (v_samples b)).

(* vspd.rs 302-311 *)
Definition vspd_interpolate (debug : bool) (spd : vspd T) (sh : spd_shape T) : outcome (vspd T) :=
  let! interp := sprague_new spd in
  let sh := SpdShape (rmax (sh_start sh) (v_start spd)) (rmin (sh_end sh) (v_end spd))
                     (sh_interval sh) in
  let! nms := shape_iter sh in
  let! samples := omap (fun nm => let! v := sprague_evaluate debug interp nm in Ret (Sample nm v)) nms in
  Ret (Vspd samples sh).

(* the two [while] loops of extrapolate, vspd.rs 345-348 and 351-354 *)
Fixpoint extrap_while (fuel : nat) (cond : T -> bool) (spd : vspd T) (i x : T)
  : outcome (list (sample T)) :=
  if cond x then
    match fuel with
    | 0%nat => OutOfFuel
    | S fuel' =>
        let! v := extrapolator_evaluate spd x in
        let! rest := extrap_while fuel' cond spd i (x + i) in
        Ret (Sample x v :: rest)
    end
  else Ret [].

(* vspd.rs 326-360 *)
Definition vspd_extrapolate (fuel : nat) (spd : vspd T) (sh : spd_shape T) : outcome (vspd T) :=
  let start := rmin (v_start spd) (sh_start sh) in
  let end_ := rmax (v_end spd) (sh_end sh) in
  let! i := match v_interval spd with
            | Uniform v => Ret v
            | Varying => match sh_interval sh with
                         | Uniform v => Ret v
                         | Varying => Panic
                         end
            end in
  let! before := extrap_while fuel (fun x => x <? v_start spd) spd i start in
  let! after := extrap_while fuel (fun x => x <=? end_) spd i (v_end spd + i) in
  Ret (Vspd (before ++ v_samples spd ++ after) (shape_new (sh_start sh) (sh_end sh) i)).

(* vspd.rs 315-317 *)
Definition vspd_align (debug : bool) (fuel : nat) (spd : vspd T) (sh : spd_shape T)
  : outcome (vspd T) :=
  let! s := vspd_interpolate debug spd sh in
  vspd_extrapolate fuel s sh.

(* Iterator::skip_while, take_while *)
Fixpoint skip_while {A : Type} (p : A -> bool) (l : list A) : list A :=
  match l with
  | [] => []
  | a :: l' => if p a then skip_while p l' else l
  end.
Fixpoint take_while {A : Type} (p : A -> bool) (l : list A) : list A :=
  match l with
  | [] => []
  | a :: l' => if p a then a :: take_while p l' else []
  end.

(* vspd.rs 366-386 *)
Definition vspd_trim (spd : vspd T) (sh : spd_shape T) : outcome (vspd T) :=
  let samples := take_while (fun s => s_nm s <=? sh_end sh)
                   (skip_while (fun s => s_nm s <? sh_start sh) (v_samples spd)) in
  let! f := unwrap (first_opt samples) in
  let! l := unwrap (last_opt samples) in
  Ret (Vspd samples (SpdShape (s_nm f) (s_nm l) (v_interval spd))).

(* vspd.rs 739-757 (FromIterator), 767-797 (Div<f64>, Mul<f64>): collect rebuilds via new *)
Definition vspd_div (spd : vspd T) (k : T) : outcome (vspd T) :=
  vspd_new (map (fun s => Sample (s_nm s) (s_v s / k)) (v_samples spd)).
Definition vspd_mul (spd : vspd T) (k : T) : outcome (vspd T) :=
  vspd_new (map (fun s => Sample (s_nm s) (s_v s * k)) (v_samples spd)).
Definition vspd_from_pairs (l : list (T * T)) : outcome (vspd T) :=
  vspd_new (map (fun '(nm, v) => Sample nm v) l).

(* vspd.rs 686-697 *)
Definition lagrange_coefficients (r : T) (n : nat) : list T :=
  map (fun j =>
    fold_left (fun l i =>
      if Nat.eqb i j then l
      else l * ((r - of_usize i) / (of_usize j - of_usize i)))
      (seq 0 n) (rlitd 1.0))
    (seq 0 n).

(* vspd.rs 699-726: the points produced by linspace(start, end, steps); [steps - 1] is usize *)
Definition linspace (start end_ : T) (steps : nat) : outcome (list T) :=
  let! d := usize_sub steps 1 in
  let delta := (end_ - start) / of_usize d in
  Ret (map (fun k => of_usize k * delta + start) (seq 0 steps)).

(* vspd.rs 730-737 *)
Definition lagrange_coefficients_astm_e2022 (i : T) (degree : nat) : outcome (list (list T)) :=
  let! num := usize_sub (as_usize i) 1 in
  let d := if Nat.eqb degree 4 then rlitd 1.0 else rlitd 0.0 in
  let! rs := linspace (rlitd 1.0 / i) (rlitd 1.0 - (rlitd 1.0 / i)) num in
  Ret (map (fun r => lagrange_coefficients (r + d) degree) rs).

(* ---- cmf.rs ---- *)
(* cmf.rs 12-16 *)
Record cmf : Type := Cmf { x_bar : vspd T; y_bar : vspd T; z_bar : vspd T }.
(* cmf.rs 20-22 *)
Definition cmf_shape (c : cmf) : spd_shape T := v_shape (x_bar c).
(* cmf.rs 26-32 *)
Definition cmf_align (debug : bool) (fuel : nat) (c : cmf) (sh : spd_shape T) : outcome cmf :=
  let! x := vspd_align debug fuel (x_bar c) sh in
  let! y := vspd_align debug fuel (y_bar c) sh in
  let! z := vspd_align debug fuel (z_bar c) sh in
  Ret (Cmf x y z).

(* ---- tristimulus integration ---- *)
(* izip!(a, b, c).map(|(s, i, c)| s * i * c * dw).sum() *)
Definition sum3 (a b c : list T) (dw : T) : T :=
  fsum (map (fun '((s, i), c) => s * i * c * dw) (combine (combine a b) c)).

(* vspd.rs 465-495 *)
Definition spd_to_xyz_integration (debug : bool) (fuel : nat) (spd illuminant : vspd T) (c : cmf)
    (sh : spd_shape T) : outcome (xyz T) :=
  let! cx := vspd_align debug fuel (x_bar c) sh in
  let! cy := vspd_align debug fuel (y_bar c) sh in
  let! cz := vspd_align debug fuel (z_bar c) sh in
  let! ill := vspd_align debug fuel illuminant sh in
  let! s := vspd_align debug fuel spd sh in
  match sh_interval sh with
  | Varying => Panic
  | Uniform dw =>
      let k := rlitd 100.0 /
               fsum (map (fun '(i, y) => i * y * dw) (combine (v_values ill) (v_values cy))) in
      Ret (Xyz (k * sum3 (v_values s) (v_values ill) (v_values cx) dw)
               (k * sum3 (v_values s) (v_values ill) (v_values cy) dw)
               (k * sum3 (v_values s) (v_values ill) (v_values cz) dw))
  end.

(* Iterator::step_by *)
Fixpoint step_from {A : Type} (k c : nat) (l : list A) : list A :=
  match l with
  | [] => []
  | a :: l' => match c with
               | 0%nat => a :: step_from k (k - 1) l'
               | S c' => step_from k c' l'
               end
  end.
Definition step_by {A : Type} (k : nat) (l : list A) : outcome (list A) :=
  match k with
  | 0%nat => Panic                                         (* assert!(step != 0) *)
  | _ => Ret (step_from k 0 l)
  end.

(* [w[k] += v] *)
Fixpoint list_upd {A : Type} (l : list A) (k : nat) (f : A -> A) : list A :=
  match l, k with
  | [], _ => []
  | a :: l', 0%nat => f a :: l'
  | a :: l', S k' => a :: list_upd l' k' f
  end.
Definition vec_add (w : list T) (k : nat) (v : T) : outcome (list T) :=
  if Nat.ltb k (length w) then Ret (list_upd w k (fun e => e + v)) else Panic.

(* [c[a][b] * s[i] * y[i]] *)
Definition wterm (c : list (list T)) (a b : nat) (s y : list T) (i : nat) : outcome T :=
  let! row := oindex c a in
  let! cab := oindex row b in
  let! si := oindex s i in
  let! yi := oindex y i in
  Ret (cab * si * yi).

(* vspd.rs 559-638 for one of the three channels: [w_c], [i_c], the illuminant [s] and the
   coefficient tables are shared; the three channels are otherwise independent. *)
Definition weights_channel (I w_c i_c : nat) (c_c c_b : list (list T)) (s y : list T) (w : list T)
  : outcome (list T) :=
  let r_c := length c_b in
  let! wl := usize_sub w_c ((w_c - 1) mod I) in
  let! wl := usize_sub wl 1 in
  let! w_lif := usize_sub wl r_c in
  let! i_cm := usize_sub i_c 1 in
  (* first interval, 594-600 *)
  let! w := ofold (fun w j => ofold (fun w k =>
              let! t := wterm c_c j k s y (j + 1) in vec_add w k t)
              (seq 0 3) w) (seq 0 r_c) w in
  (* last interval, 603-609 *)
  let! w := ofold (fun w j =>
              let! lo := usize_sub i_cm 2 in
              ofold (fun w k =>
                let! t := wterm c_c (r_c - j - 1) (i_cm - k) s y (j + w_lif) in vec_add w k t)
                (rev (seq lo 3)) w) (seq 0 r_c) w in
  (* intermediate intervals, 612-631 *)
  let! nj := usize_sub i_c 3 in
  let! w := ofold (fun w j => ofold (fun w k =>
              let w_i := ((r_c + 1) * (j + 1) + 1 + k)%nat in
              ofold (fun w q => let! t := wterm c_b k q s y w_i in vec_add w (j + q) t)
                (seq 0 4) w) (seq 0 r_c) w) (seq 0 nj) w in
  (* possibly incomplete last interval, 634-638 *)
  ofold (fun w j =>
    let! sj := oindex s j in
    let! yj := oindex y j in
    vec_add w i_cm (sj * yj))
    (seq (w_c - (w_c - 1) mod I) (w_c - (w_c - (w_c - 1) mod I))) w.

(* vspd.rs 528-647 *)
Definition weighting_factors_astme2022 (c : cmf) (illuminant : vspd T) (sh : spd_shape T)
  : outcome (list T * list T * list T) :=
  match sh_interval (cmf_shape c) with
  | Varying => Panic
  | Uniform ci =>
      if negb (ci =? rlitd 1.0) then Panic
      else if negb (interval_eqb (v_interval illuminant) (sh_interval (cmf_shape c))) then Panic
      else
        let y_x := v_values (x_bar c) in
        let y_y := v_values (y_bar c) in
        let y_z := v_values (z_bar c) in
        let s := v_values illuminant in
        match sh_interval sh with
        | Varying => Panic
        | Uniform i =>
            let! c_c := lagrange_coefficients_astm_e2022 i 3 in
            let! c_b := lagrange_coefficients_astm_e2022 i 4 in
            let I := as_usize i in
            let! ss := step_by I s in
            let! sx := step_by I y_x in
            let! sy := step_by I y_y in
            let! sz := step_by I y_z in
            let w_x := zip_mul ss sx in
            let w_y := zip_mul ss sy in
            let w_z := zip_mul ss sz in
            let w_c := length y_x in
            let i_c := length w_x in
            let! _ := usize_sub w_c 1 in
            let! w_x := weights_channel I w_c i_c c_c c_b s y_x w_x in
            let! w_y := weights_channel I w_c i_c c_c c_b s y_y w_y in
            let! w_z := weights_channel I w_c i_c c_c c_b s y_z w_z in
            let k := rlitd 100.0 / fsum w_y in
            Ret (map (fun x => x * k) w_x, map (fun x => x * k) w_y, map (fun x => x * k) w_z)
        end
  end.

(* vspd.rs 661-683 for one of the three channels *)
Definition adjust_channel (start_index end_index : nat) (w : list T) : outcome (list T) :=
  let! w := ofold (fun w i => let! v := oindex w i in vec_add w start_index v)
              (seq 0 start_index) w in
  let n := length w in
  let! w := ofold (fun w i =>
              let! d := usize_sub n end_index in
              let! d := usize_sub d 1 in
              let! q := usize_sub n i in
              let! q := usize_sub q 1 in
              let! v := oindex w q in vec_add w d v)
              (seq 0 end_index) w in
  let! last := usize_sub n end_index in
  if Nat.leb start_index last then Ret (firstn (last - start_index) (skipn start_index w))
  else Panic.

(* vspd.rs 649-684 *)
Definition adjust_weighting_factors_astme308 (w_x w_y w_z : list T) (shape_r shape_t : spd_shape T)
  : outcome (list T * list T * list T) :=
  match sh_interval shape_r with
  | Varying => Panic
  | Uniform ri =>
      let start_index := as_usize ((sh_start shape_t - sh_start shape_r) / ri) in
      let end_index := as_usize ((sh_end shape_r - sh_end shape_t) / ri) in
      let! x := adjust_channel start_index end_index w_x in
      let! y := adjust_channel start_index end_index w_y in
      let! z := adjust_channel start_index end_index w_z in
      Ret (x, y, z)
  end.

(* vspd.rs 497-526 *)
Definition spd_to_xyz_weighting (debug : bool) (fuel : nat) (spd illuminant : vspd T) (c : cmf)
  : outcome (xyz T) :=
  match v_interval spd with
  | Varying => Panic
  | Uniform i =>
      let! ill := if negb (shape_eqb (v_shape illuminant) (cmf_shape c))
                  then vspd_align debug fuel illuminant (cmf_shape c)
                  else Ret illuminant in
      let! s := vspd_trim spd (cmf_shape c) in
      let! w := weighting_factors_astme2022 c ill
                  (shape_new (sh_start (cmf_shape c)) (sh_end (cmf_shape c)) i) in
      let '(wx, wy, wz) := w in
      let start_w := sh_start (cmf_shape c) in
      let! nm1 := usize_sub (length wx) 1 in
      let end_w := sh_start (cmf_shape c) + i * of_usize nm1 in
      let! w := adjust_weighting_factors_astme308 wx wy wz (shape_new start_w end_w i) (v_shape s) in
      let '(wx, wy, wz) := w in
      Ret (Xyz (fsum (zip_mul wx (v_values s)))
               (fsum (zip_mul wy (v_values s)))
               (fsum (zip_mul wz (v_values s))))
  end.

(* vspd.rs 397-434 *)
Definition vspd_to_xyz (debug : bool) (fuel : nat) (spd illuminant : vspd T) (c : cmf)
  : outcome (xyz T) :=
  let s1 := shape_new (rlitd 360.0) (rlitd 780.0) (rlitd 1.0) in
  let! ill := vspd_align debug fuel illuminant s1 in
  let! c := cmf_align debug fuel c s1 in
  match v_interval spd with
  | Varying =>
      let! s := vspd_align debug fuel spd (shape_new (v_start spd) (v_end spd) (rlitd 1.0)) in
      spd_to_xyz_integration debug fuel s ill c (v_shape s)
  | Uniform i =>
      let! n := unwrap (rto_usize i) in
      if Z.eqb n 1 then spd_to_xyz_integration debug fuel spd ill c astm_e308
      else if Z.eqb n 5 then
        spd_to_xyz_integration debug fuel spd ill c
          (SpdShape (sh_start astm_e308) (sh_end astm_e308) (Uniform (rlitd 5.0)))
      else if Z.eqb n 10 then spd_to_xyz_weighting debug fuel spd ill c
      else spd_to_xyz_integration debug fuel spd ill c astm_e308
  end.

(* ---- photometry.rs 4-11 ---- *)
Definition spd_to_nit (debug : bool) (fuel : nat) (spd : vspd T) (c : cmf) : outcome T :=
  let! y := vspd_align debug fuel (y_bar c) (v_shape spd) in
  let s := fsum (zip_mul (v_values spd) (v_values y)) in
  Ret (s * rlitd 683.0 / of_usize (length (v_samples spd))).

End VspdSec.
Arguments cmf T : clear implicits.
