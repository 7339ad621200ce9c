(* Model of the lookup by name in /repo/src/colorchecker.rs: hash maps from String built by maplit's
   hashmap! and read by get or indexing. Only what a map returns is modelled, not its iteration order. *)
From Coq Require Import List String QArith.
From Verif Require Import Outcome DataChecker DataKeyed.
Import ListNotations.

Definition hmap (V : Type) : Type := string -> option V.
Definition hm_new {V} : hmap V := fun _ => None.
(* HashMap::insert: the last value inserted under a key stays *)
Definition hm_insert {V} (m : hmap V) (k : string) (v : V) : hmap V := fun q => if String.eqb q k then Some v else m q.
(* hashmap! { k => v, ... } inserts its entries from first to last *)
Definition hashmap {V} (l : list (string * V)) : hmap V := fold_left (fun m e => hm_insert m (fst e) (snd e)) l hm_new.
(* Index::index panics on a missing key *)
Definition hm_index {V} (m : hmap V) (k : string) : outcome V := match m k with Some v => Ret v | None => Panic end.

(* colorchecker.rs 77-1220: every table of colours; 1221-: the spectra *)
Definition SPECTRAL : hmap (list (Q * Q)) := hashmap keyed_SPECTRAL.
Definition XYZ_D65 : hmap (Q * Q * Q) := hashmap keyed_XYZ_D65.
