(** Numbers with three decimals, as a reader of the log files would read them. *)
From Coq Require Import ZArith Reals String Ascii Bool.
From Coq Require Import List.
From Flocq Require Import Core BinarySingleNaN.
From Verif.Model Require Import MachineIEEE.
From Verif.Spec Require Import LogSpec.
Import ListNotations.
Local Open Scope string_scope.

(** "123.450" is 123.45, "-0.500" is -0.5; anything else ("inf", "1.5", ...) is no number. *)
Definition unsigned3 (s : string) : option R :=
  match split "." s with
  | [whole; thousandths] =>
    if (String.length thousandths =? 3)%nat then
      match number whole, number thousandths with
      | Some i, Some f => Some (IZR i + IZR f / 1000)%R
      | _, _ => None
      end
    else None
  | _ => None
  end.
Definition decimal3 (s : string) : option R :=
  match s with
  | String "-" s' => option_map Ropp (unsigned3 s')
  | _ => unsigned3 s
  end.

(** The text shows the number, to the nearest thousandth. *)
Definition shows (s : string) (x : f32) : Prop :=
  exists v, decimal3 s = Some v /\ (Rabs (v - B2R x) <= 1 / 2000)%R
    /\ (exists k, v = IZR k / 1000)%R.
