(* Model of /repo/src/math.rs *)
From Coq Require Import List ZArith QArith.
From Verif Require Import Outcome RealOps.
Import ListNotations.
Open Scope num_scope.

Section Math.
Context {T : Type} {O : RealOps T}.

(* math.rs 11-22 *)
Definition clamp (x a b : T) : T :=
  if x <? a then a else if x >? b then b else x.

(* math.rs 25-27 (f32 in the source) *)
Definition lerp (a b t : T) : T :=
  (rlitd 1.0 - t) * a + t * b.

(* math.rs 38-43 *)
Definition sqr (x : T) : T := x * x.

(* math.rs 142-147: [pub struct Matrix33<T> { pub x: [T; 9] }], row major *)
Record mat33 : Type := Mat33 {
  mx0 : T; mx1 : T; mx2 : T;
  mx3 : T; mx4 : T; mx5 : T;
  mx6 : T; mx7 : T; mx8 : T
}.

(* the array [x] as a list *)
Definition mat_list (m : mat33) : list T :=
  [mx0 m; mx1 m; mx2 m; mx3 m; mx4 m; mx5 m; mx6 m; mx7 m; mx8 m].

(* math.rs 359-369: [m[i]] is the slice x[3i .. 3i+3]; slicing past the end panics *)
Definition mat_row (m : mat33) (i : nat) : outcome (list T) :=
  if Nat.leb (i * 3 + 3) 9 then Ret (firstn 3 (skipn (i * 3) (mat_list m))) else Panic.

(* [m[i][j]]: slice of row i, then slice index j (math.rs 359-369) *)
Definition mat_index (m : mat33) (i j : nat) : outcome T :=
  let! row := mat_row m i in oindex row j.

(* entry k of the array [x]; only called with k < 9 *)
Definition mat_nth (m : mat33) (k : nat) : T :=
  match k with
  | 0 => mx0 m | 1 => mx1 m | 2 => mx2 m
  | 3 => mx3 m | 4 => mx4 m | 5 => mx5 m
  | 6 => mx6 m | 7 => mx7 m | _ => mx8 m
  end%nat.

(* [m[i][j]] for i, j < 3 (all internal uses): math.rs 365-368 *)
Definition mget (m : mat33) (i j : nat) : T := mat_nth m (i * 3 + j).

(* assignment [m[i][j] = v] for i, j < 3: math.rs 377-380 *)
Definition mset (m : mat33) (i j : nat) (v : T) : mat33 :=
  let s k old := if Nat.eqb (i * 3 + j) k then v else old in
  Mat33 (s 0%nat (mx0 m)) (s 1%nat (mx1 m)) (s 2%nat (mx2 m))
        (s 3%nat (mx3 m)) (s 4%nat (mx4 m)) (s 5%nat (mx5 m))
        (s 6%nat (mx6 m)) (s 7%nat (mx7 m)) (s 8%nat (mx8 m)).

(* assignment [m[i][j] = v] with its panics (math.rs 373-381) *)
Definition mat_index_mut (m : mat33) (i j : nat) (v : T) : outcome mat33 :=
  if Nat.leb (i * 3 + 3) 9 then
    if Nat.ltb j 3 then Ret (mset m i j v) else Panic
  else Panic.

(* map over the nine entries *)
Definition mat_map (f : T -> T) (m : mat33) : mat33 :=
  Mat33 (f (mx0 m)) (f (mx1 m)) (f (mx2 m))
        (f (mx3 m)) (f (mx4 m)) (f (mx5 m))
        (f (mx6 m)) (f (mx7 m)) (f (mx8 m)).

(* derived PartialEq (math.rs 141): array equality *)
Definition mat_eqb (a b : mat33) : bool :=
  (mx0 a =? mx0 b) && (mx1 a =? mx1 b) && (mx2 a =? mx2 b) &&
  (mx3 a =? mx3 b) && (mx4 a =? mx4 b) && (mx5 a =? mx5 b) &&
  (mx6 a =? mx6 b) && (mx7 a =? mx7 b) && (mx8 a =? mx8 b).

(* math.rs 157-171 *)
Definition mat_identity : mat33 :=
  Mat33 rone rzero rzero rzero rone rzero rzero rzero rone.

(* math.rs 179-185 *)
Definition mat_transposed (m : mat33) : mat33 :=
  Mat33 (mget m 0 0) (mget m 1 0) (mget m 2 0)
        (mget m 0 1) (mget m 1 1) (mget m 2 1)
        (mget m 0 2) (mget m 1 2) (mget m 2 2).

(* math.rs 188-192 *)
Definition mat_determinant (m : mat33) : T :=
  mget m 0 0 * (mget m 1 1 * mget m 2 2 - mget m 1 2 * mget m 2 1)
  + mget m 0 1 * (mget m 1 2 * mget m 2 0 - mget m 1 0 * mget m 2 2)
  + mget m 0 2 * (mget m 1 0 * mget m 2 1 - mget m 1 1 * mget m 2 0).

(* -- gj_inverse, math.rs 195-266.  The state of the loops is (mtx_t, mtx_s). -- *)

(* math.rs 201-210: pivot search, reading [self] (not mtx_t) *)
Definition gj_pivot (self : mat33) (i : nat) : nat * T :=
  fold_left
    (fun '(pivot, pivot_size) j =>
       let tmp := rabs (mget self j i) in
       if tmp >? pivot_size then (j, tmp) else (pivot, pivot_size))
    (seq (i + 1) (3 - (i + 1)))
    (i, rabs (mget self i i)).

(* math.rs 217-228: swap rows i and pivot of both matrices *)
Definition gj_swap (i pivot : nat) (ts : mat33 * mat33) : mat33 * mat33 :=
  if Nat.eqb pivot i then ts else
  fold_left
    (fun '(t, s) j =>
       let tmp1 := mget t i j in
       let t := mset t i j (mget t pivot j) in
       let t := mset t pivot j tmp1 in
       let tmp2 := mget s i j in
       let s := mset s i j (mget s pivot j) in
       let s := mset s pivot j tmp2 in
       (t, s))
    (seq 0 3) ts.

(* math.rs 232-237 and 256-261: row j -= f * row i, entry by entry, both matrices *)
Definition gj_submul (f : T) (i j : nat) (ts : mat33 * mat33) : mat33 * mat33 :=
  fold_left
    (fun '(mt, ms) k =>
       let t := mget mt i k in
       let s := mget ms i k in
       (mset mt j k (mget mt j k - f * t), mset ms j k (mget ms j k - f * s)))
    (seq 0 3) ts.

(* math.rs 230-238: eliminate below row i *)
Definition gj_eliminate (i : nat) (ts : mat33 * mat33) : mat33 * mat33 :=
  fold_left
    (fun ts j => gj_submul (mget (fst ts) j i / mget (fst ts) i i) i j ts)
    (seq (i + 1) (3 - (i + 1))) ts.

(* math.rs 200-239: one iteration of forward elimination *)
Definition gj_forward (self : mat33) (i : nat) (ts : mat33 * mat33) : option (mat33 * mat33) :=
  let '(pivot, pivot_size) := gj_pivot self i in
  if pivot_size =? rzero then None
  else Some (gj_eliminate i (gj_swap i pivot ts)).

(* math.rs 249-252: divide row i by f *)
Definition gj_scale (f : T) (i : nat) (ts : mat33 * mat33) : mat33 * mat33 :=
  fold_left
    (fun '(t, s) j => (mset t i j (mget t i j / f), mset s i j (mget s i j / f)))
    (seq 0 3) ts.

(* math.rs 242-263: one iteration of backward substitution *)
Definition gj_backward (i : nat) (ts : mat33 * mat33) : option (mat33 * mat33) :=
  let f := mget (fst ts) i i in
  if f =? rzero then None
  else
    let ts := gj_scale f i ts in
    Some (fold_left (fun ts j => gj_submul (mget (fst ts) j i) i j ts) (seq 0 i) ts).

Definition opt_bind {A B : Type} (m : option A) (f : A -> option B) : option B :=
  match m with Some a => f a | None => None end.

(* math.rs 195-266 *)
Definition mat_gj_inverse (self : mat33) : option mat33 :=
  opt_bind (gj_forward self 0 (self, mat_identity)) (fun ts =>
  opt_bind (gj_forward self 1 ts) (fun ts =>
  opt_bind (gj_backward 2 ts) (fun ts =>
  opt_bind (gj_backward 1 ts) (fun ts =>
  opt_bind (gj_backward 0 ts) (fun ts =>
  Some (snd ts)))))).

(* -- inverse, math.rs 269-336 -- *)

(* math.rs 285-298 and 316-329: divide every one of the nine entries by r, or give up.
   The loop body either divides in place or returns None from the function, so the result is
   Some exactly when every entry passes the test. *)
Definition inv_scale (r : T) (s : mat33) : option mat33 :=
  if rabs r >=? rone then Some (mat_map (fun e => e / r) s)
  else
    let mr := rabs r / rmin_positive in
    if forallb (fun e => mr >? rabs e) (mat_list s)
    then Some (mat_map (fun e => e / r) s)
    else None.

(* math.rs 271-281 *)
Definition inv_cofactors (m : mat33) : mat33 :=
  Mat33
    (mget m 1 1 * mget m 2 2 - mget m 2 1 * mget m 1 2)
    (mget m 2 1 * mget m 0 2 - mget m 0 1 * mget m 2 2)
    (mget m 0 1 * mget m 1 2 - mget m 1 1 * mget m 0 2)
    (mget m 2 0 * mget m 1 2 - mget m 1 0 * mget m 2 2)
    (mget m 0 0 * mget m 2 2 - mget m 2 0 * mget m 0 2)
    (mget m 1 0 * mget m 0 2 - mget m 0 0 * mget m 1 2)
    (mget m 1 0 * mget m 2 1 - mget m 2 0 * mget m 1 1)
    (mget m 2 0 * mget m 0 1 - mget m 0 0 * mget m 2 1)
    (mget m 0 0 * mget m 1 1 - mget m 1 0 * mget m 0 1).

(* math.rs 270: the test choosing the general branch *)
Definition inv_general (m : mat33) : bool :=
  (mget m 0 2 >? repsilon) || (mget m 1 2 >? repsilon)
  || (rabs (mget m 2 2 - rone) >? repsilon).

(* math.rs 269-336 *)
Definition mat_inverse (self : mat33) : option mat33 :=
  if inv_general self then
    let s := inv_cofactors self in
    let r := mget self 0 0 * mget s 0 0 + mget self 0 1 * mget s 1 0 + mget self 0 2 * mget s 2 0 in
    inv_scale r s
  else
    let s := Mat33 (mget self 1 1) (- mget self 0 1) rzero
                   (- mget self 1 0) (mget self 0 0) rzero
                   rzero rzero rone in
    let r := mget self 0 0 * mget self 1 1 - mget self 1 0 * mget self 0 1 in
    opt_bind (inv_scale r s) (fun s =>
    let s := mset s 2 0 (- mget self 2 0 * mget s 0 0 - mget self 2 1 * mget s 1 0) in
    let s := mset s 2 1 (- mget self 2 0 * mget s 0 1 - mget self 2 1 * mget s 1 1) in
    Some s).

(* math.rs 383-401: triple loop accumulating into a zero matrix *)
Definition mat_mul (a b : mat33) : mat33 :=
  fold_left (fun m i =>
    fold_left (fun m j =>
      fold_left (fun m k =>
        mset m i j (mget m i j + mget a i k * mget b k j))
        (seq 0 3) m)
      (seq 0 3) m)
    (seq 0 3)
    (Mat33 rzero rzero rzero rzero rzero rzero rzero rzero rzero).

(* math.rs 403-498 *)
Definition mat_add_s (m : mat33) (r : T) : mat33 := mat_map (fun e => e + r) m.
Definition mat_sub_s (m : mat33) (r : T) : mat33 := mat_map (fun e => e - r) m.
Definition mat_mul_s (m : mat33) (r : T) : mat33 := mat_map (fun e => e * r) m.
Definition mat_div_s (m : mat33) (r : T) : mat33 := mat_map (fun e => e / r) m.
Definition mat_neg (m : mat33) : mat33 := mat_map rneg m.

End Math.

Arguments mat33 T : clear implicits.

(* math.rs 339-355: From<M3f64> for M3f32, with [as f32] as a parameter *)
Definition mat_cast {A B : Type} (f : A -> B) (m : mat33 A) : mat33 B :=
  Mat33 (f (mx0 m)) (f (mx1 m)) (f (mx2 m))
        (f (mx3 m)) (f (mx4 m)) (f (mx5 m))
        (f (mx6 m)) (f (mx7 m)) (f (mx8 m)).
