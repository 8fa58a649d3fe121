(** The constants of the programs. *)
From Coq Require Import Reals ZArith List String.
From Flocq Require Import Core BinarySingleNaN.
From Verif.Model Require Import MachineIEEE.

(** x is the float nearest to the number r (ties to even). *)
Definition nearest_float (r : R) (x : f32) : Prop :=
  is_finite x = true /\ B2R x = round radix2 (FLT_exp (-149) 24) ZnearestE r.
