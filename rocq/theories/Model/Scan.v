(** The number scanners of the C and C++ library as convert.cc uses them (sscanf with %lld and
    %f, convert.cc:84, 140-141; operator>> of a stream, convert.cc:199-201, 217-219), for
    decimal notation.  Library code, not code of /repo: this model shows that the demands of
    Spec/CsvTextSpec.v can be met, and lets the examples run.  Not modelled: hexadecimal
    numbers, "inf" and "nan" (accepted by scanf only); the failure of operator>> on a number
    that is out of range (here, as with scanf of the GNU library, an integer is clamped and a
    float becomes infinite). *)
From Coq Require Import ZArith String Ascii Bool.
From Flocq Require Import Core BinarySingleNaN.
From Verif.Model Require Import Machine Convert MachineIEEE.
Local Open Scope Z_scope.

(** isspace. *)
Definition is_blank (c : ascii) : bool :=
  ((nat_of_ascii c =? 32) || ((9 <=? nat_of_ascii c) && (nat_of_ascii c <=? 13)))%nat.
Fixpoint skip_blanks (s : string) : string :=
  match s with
  | String c s' => if is_blank c then skip_blanks s' else s
  | EmptyString => EmptyString
  end.

Definition take_sign (s : string) : bool * string :=
  match s with
  | String c s' =>
    if Ascii.eqb c "-" then (true, s') else if Ascii.eqb c "+" then (false, s') else (false, s)
  | EmptyString => (false, EmptyString)
  end.

(** The digits at the start: their value (after the digits read so far), their number. *)
Fixpoint take_digits (n : Z) (k : nat) (s : string) : Z * nat * string :=
  match s with
  | String c s' =>
    let d := Z.of_nat (nat_of_ascii c) - 48 in
    if (0 <=? d) && (d <=? 9) then take_digits (10 * n + d) (S k) s' else (n, k, s)
  | EmptyString => (n, k, EmptyString)
  end.

Definition scan_signed (s : string) : option (Z * string) :=
  let (minus, s1) := take_sign s in
  let '(n, k, s2) := take_digits 0 0 s1 in
  if (k =? 0)%nat then None else Some (if minus then - n else n, s2).

Definition clamp64 (z : Z) : Z := Z.max (- 2 ^ 63) (Z.min z (2 ^ 63 - 1)).
Definition scan_lld (s : string) : option (Z * string) :=
  match scan_signed (skip_blanks s) with
  | Some (z, rest) => Some (clamp64 z, rest)
  | None => None
  end.

(** n * 10^e or - n * 10^e, rounded to nearest, ties to even (for 0 <= n). *)
Definition f32_of_decimal (minus : bool) (n e : Z) : f32 :=
  match n with
  | Zpos m =>
    match e with
    | Zneg k =>
      SF2B (let '(mz, ez, lz) := SpecFloat.SFdiv_core_binary 24 128 (Zpos m) 0 (Zpos (10 ^ k)) 0 in
            binary_round_aux 24 128 mode_NE (xorb minus false) mz ez lz)
           (proj1 (Bdiv_correct_aux 24 128 _ _ mode_NE minus m 0 false (10 ^ k) 0))
    | _ => binary_normalize 24 128 _ _ mode_NE (SpecFloat.cond_Zopp minus (Zpos m * 10 ^ e)) 0 minus
    end
  | _ => B754_zero minus
  end.

Definition scan_f (s : string) : option (f32 * string) :=
  let (minus, s1) := take_sign (skip_blanks s) in
  let '(n1, k1, s2) := take_digits 0 0 s1 in
  let '(n, k, after, s3) :=
    match s2 with
    | String c s2' =>
      if Ascii.eqb c "." then
        let '(n2, k2, s3) := take_digits n1 0 s2' in (n2, (k1 + k2)%nat, k2, s3)
      else (n1, k1, 0%nat, s2)
    | EmptyString => (n1, k1, 0%nat, s2)
    end in
  if (k =? 0)%nat then None else
  match s3 with
  | String c s4 =>
    if Ascii.eqb c "e" || Ascii.eqb c "E" then
      match scan_signed s4 with
      | Some (e, s5) => Some (f32_of_decimal minus n (e - Z.of_nat after), s5)
      | None => None
      end
    else Some (f32_of_decimal minus n (- Z.of_nat after), s3)
  | EmptyString => Some (f32_of_decimal minus n (- Z.of_nat after), s3)
  end.

Definition decimal_scanner (lm : libm) (as_ : bool) : @scanner (ieee lm as_) :=
  Scanner (M := ieee lm as_) scan_lld scan_f.
