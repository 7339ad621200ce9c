(* Model of the Display and Debug implementations: what each writes around the texts of its numbers.
   [show] is the Display of the number type (for floats Rust's own, which is not modelled). *)
From Coq Require Import String List ZArith Decimal DecimalString.
From Verif Require Import ColorModel InterpModel.
Import ListNotations.
Open Scope string_scope.

(* Display of u8 and u16: decimal digits without leading zeros *)
Definition show_uint (z : Z) : string := NilEmpty.string_of_uint (N.to_uint (Z.to_N z)).

Section Show.
Context {T : Type} (show : T -> string).

(* rgb.rs 203-210, 646-656 *)
Definition rgb_show (c : rgbf T) : string := "(" ++ show (rgb_r c) ++ ", " ++ show (rgb_g c) ++ ", " ++ show (rgb_b c) ++ ")".
(* xyz.rs 164-171 *)
Definition xyz_show (c : xyz T) : string := "(" ++ show (xyz_x c) ++ ", " ++ show (xyz_y c) ++ ", " ++ show (xyz_z c) ++ ")".
(* vspd.rs 41-51 *)
Definition interval_show (i : interval T) : string := match i with Uniform v => show v | Varying => "Varying" end.
(* vspd.rs 18-19 *)
Definition shape_show (s : spd_shape T) : string := "(" ++ show (sh_start s) ++ ", " ++ show (sh_end s) ++ ", " ++ interval_show (sh_interval s) ++ ")".
(* vspd.rs 118-119, 131-135 *)
Definition sample_show (s : sample T) : string := "(" ++ show (s_nm s) ++ ", " ++ show (s_v s) ++ ")".
(* for v in l { write!(f, "{}, ", v)?; } *)
Fixpoint items_show {A : Type} (f : A -> string) (l : list A) : string := match l with [] => "" | a :: l => f a ++ ", " ++ items_show f l end.
(* vspd.rs 162-180: Display and Debug write the same *)
Definition vspd_show (s : vspd T) : string :=
  "VSPD(" ++ show (v_start s) ++ ", " ++ show (v_end s) ++ ", " ++ interval_show (v_interval s) ++ ")[" ++ items_show sample_show (v_samples s) ++ "]".
(* spd.rs 205-229: Display and Debug write the same *)
Definition spd_show (l : list T) : string := "[" ++ items_show show l ++ "]".
End Show.
