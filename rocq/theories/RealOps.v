(* The number type the Rust code is generic over.

   Rust: [pub trait Real: Scalar + Float] (math.rs 530-559): any type with the arithmetic
   operators, comparison and the methods of num_traits::Float.  The class below holds the
   operations the modelled code calls, and no laws whatsoever: a law is proved per instance
   (XReal.v: exact reals with an explicit undefined value; FloatInst.v: IEEE binary32 and
   binary64). *)
From Coq Require Import ZArith QArith.

Class RealOps (T : Type) : Type := {
  rzero : T;                       (* T::zero() *)
  rone : T;                        (* T::one() *)
  radd : T -> T -> T;
  rsub : T -> T -> T;
  rmul : T -> T -> T;
  rdiv : T -> T -> T;
  rneg : T -> T;
  rfma : T -> T -> T -> T;         (* a*b + c with one rounding (simdeez fmadd_ps on AVX2) *)
  rabs : T -> T;                   (* .abs() *)
  rlt : T -> T -> bool;            (* a < b *)
  rle : T -> T -> bool;            (* a <= b *)
  req : T -> T -> bool;            (* a == b *)
  rmax : T -> T -> T;              (* Float::max *)
  rmin : T -> T -> T;              (* Float::min *)
  rsqrt : T -> T;
  rexp : T -> T;
  rsin : T -> T;
  rcos : T -> T;
  rlog10 : T -> T;
  rpowf : T -> T -> T;
  rpowi : T -> Z -> T;             (* .powi(i32) *)
  ratan2 : T -> T -> T;            (* y.atan2(x) *)
  rhypot : T -> T -> T;
  rto_degrees : T -> T;
  rto_radians : T -> T;
  rround : T -> T;                 (* .round(): halves away from zero *)
  repsilon : T;                    (* T::epsilon() *)
  rmin_positive : T;               (* T::min_positive_value() *)
  rmin_value : T;                  (* T::min_value() *)
  rmax_value : T;                  (* T::max_value() *)
  rlit : Q -> T;                   (* decimal literal in generic code: T::from(<f64 literal>).unwrap() *)
  rlitd : Q -> T;                  (* decimal literal written directly at type T *)
  rof_Z : Z -> T;                  (* [as T] / T::from of an integer *)
  rto_usize : T -> option Z;       (* ToPrimitive::to_usize *)
  ras_uint : Z -> T -> Z;          (* [as uN], N-bit maximum given: truncates and saturates *)
  rapprox : T -> T -> T -> Z -> bool  (* float_cmp approx_eq with margin {epsilon, ulps} *)
}.

Declare Scope num_scope.
Delimit Scope num_scope with num.

Notation "a + b" := (radd a b) : num_scope.
Notation "a - b" := (rsub a b) : num_scope.
Notation "a * b" := (rmul a b) : num_scope.
Notation "a / b" := (rdiv a b) : num_scope.
Notation "- a" := (rneg a) : num_scope.
Notation "a <? b" := (rlt a b) : num_scope.
Notation "a <=? b" := (rle a b) : num_scope.
Notation "a =? b" := (req a b) : num_scope.
(* Rust's [a > b] and [a >= b] *)
Notation "a >? b" := (rlt b a) : num_scope.
Notation "a >=? b" := (rle b a) : num_scope.

Arguments rlit {T RealOps} _%Q.
Arguments rlitd {T RealOps} _%Q.
