(** The arithmetic the C++ program runs on.

    All model functions are written once, over an abstract [machine]: the type
    [flt] of C++ [float], the type [dbl] of C++ [double] and the operations the
    code uses.  Two instances are given elsewhere:
    - MachineIEEE.v: IEEE-754 binary32/binary64, round to nearest even (Flocq);
    - MachineR.v: exact real arithmetic (used to state what the formulas mean
      when rounding is ignored).
    Theorems that do not depend on arithmetic are proved for every machine.

    Assumption on the compiler (trusted): every float operation is rounded to
    float (FLT_EVAL_METHOD = 0, no fused multiply-add), as on x86-64/AArch64
    with default flags and contraction off. *)

From Coq Require Import ZArith String Bool.
From Verif.Model Require Import Outcome.

Class machine : Type := Machine {
  (** C++ float *)
  flt : Type;
  fadd : flt -> flt -> flt;
  fsub : flt -> flt -> flt;
  fmul : flt -> flt -> flt;
  fdiv : flt -> flt -> flt;
  fopp : flt -> flt;
  fsqrt : flt -> flt;      (* std::sqrt(float) *)
  ffloor : flt -> flt;     (* std::floor(float) *)
  fceil : flt -> flt;      (* std::ceil(float) *)
  fround : flt -> flt;     (* std::round(float): to nearest, ties away from zero *)
  fexp : flt -> flt;       (* std::exp(float) *)
  flog : flt -> flt;       (* std::log(float) *)
  fltb : flt -> flt -> bool;  (* x < y  *)
  fleb : flt -> flt -> bool;  (* x <= y *)
  feqb : flt -> flt -> bool;  (* x == y *)
  fofZ : Z -> flt;         (* conversion of an integer to float *)
  fmaxval : flt;           (* std::numeric_limits<float>::max() *)
  ffmt3 : flt -> string;   (* printf "%.3f" *)
  (** C++ double *)
  dbl : Type;
  dadd : dbl -> dbl -> dbl;
  dsub : dbl -> dbl -> dbl;
  dmul : dbl -> dbl -> dbl;
  ddiv : dbl -> dbl -> dbl;
  dsqrt : dbl -> dbl;
  dpow : dbl -> dbl -> dbl; (* std::pow(double, double) *)
  dleb : dbl -> dbl -> bool;
  dofZ : Z -> dbl;
  f2d : flt -> dbl;        (* implicit float -> double *)
  d2f : dbl -> flt;        (* static_cast<float>(double), implicit narrowing *)
  (** true iff the program is compiled without NDEBUG *)
  asserts_on : bool
}.

Declare Scope flt_scope.
Delimit Scope flt_scope with F.
Notation "x + y" := (fadd x y) : flt_scope.
Notation "x - y" := (fsub x y) : flt_scope.
Notation "x * y" := (fmul x y) : flt_scope.
Notation "x / y" := (fdiv x y) : flt_scope.
Notation "- x" := (fopp x) : flt_scope.
Notation "x <? y" := (fltb x y) : flt_scope.
Notation "x <=? y" := (fleb x y) : flt_scope.
Notation "x >? y" := (fltb y x) : flt_scope.
Notation "x >=? y" := (fleb y x) : flt_scope.
Notation "x =? y" := (feqb x y) : flt_scope.
Notation "# n" := (fofZ n%Z) (at level 1, n at level 0, format "# n") : flt_scope.

Section Derived.
  Context {M : machine}.
  Local Open Scope flt_scope.

  (** [assert(b)] (cassert): aborts if b is false, unless NDEBUG is defined. *)
  Definition assert_ (b : bool) : outcome unit :=
    if asserts_on then (if b then Done tt else AssertFail) else Done tt.

  (** std::max(a, b) of <algorithm>: (a < b) ? b : a. *)
  Definition fmax (a b : flt) : flt := if a <? b then b else a.

  (** std::min(a, b) of <algorithm>: (b < a) ? b : a. *)
  Definition fmin (a b : flt) : flt := if b <? a then b else a.

  (** A decimal float literal n/d (both exactly representable): the correctly
      rounded quotient, which is what the compiler stores for the literal. *)
  Definition flit (n d : Z) : flt := fofZ n / fofZ d.

  (** std::pow(x, 2) for a float x: computed in double.  A product of two
      24-bit significands is exact in binary64. *)
  Definition dsquare (x : flt) : dbl := dmul (f2d x) (f2d x).
End Derived.
