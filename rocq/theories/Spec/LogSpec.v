(** Text files: lines, columns and numbers, independently of how they are produced. *)
From Coq Require Import ZArith String Ascii Bool DecimalString.
From Coq Require Import List.
From Verif.Model Require Import Machine Types.
Import ListNotations.

(** Splitting a text at every occurrence of a character (like Python's str.split). *)
Fixpoint split (c : ascii) (s : string) : list string :=
  match s with
  | EmptyString => [EmptyString]
  | String a s' =>
    if Ascii.eqb a c then EmptyString :: split c s'
    else match split c s' with
         | x :: xs => String a x :: xs
         | [] => [String a EmptyString]
         end
  end.

Definition comma : ascii := ","%char.
Definition line_feed : ascii := ascii_of_nat 10.

(** The text file with the given lines, each ended by a line feed. *)
Definition text (lines : list string) : string :=
  String.concat EmptyString (map (fun l => l ++ String line_feed EmptyString)%string lines).

(** The integer written in decimal; e.g. "07" and "7" are 7. *)
Definition number (s : string) : option Z := option_map Z.of_int (NilZero.int_of_string s).

(** The documented columns of the exchange log: tick, account, order. *)
Definition tick_columns {M : machine} (t : ohlc_tick) (cols : list string) : Prop :=
  exists ts, number ts = Some (timestamp_sec t)
    /\ cols = [ts; ffmt3 (open t); ffmt3 (high t); ffmt3 (low t); ffmt3 (close t); ffmt3 (volume t)].
Definition account_columns {M : machine} (a : account) (cols : list string) : Prop :=
  cols = [ffmt3 (base_balance a); ffmt3 (quote_balance a); ffmt3 (total_fee a)].
Definition no_order_columns (cols : list string) : Prop :=
  cols = [EmptyString; EmptyString; EmptyString; EmptyString; EmptyString].
(** Type, side, base amount, quote amount and price; what the order does not have is left
    empty (an unset type or side reads as MARKET and BUY). *)
Definition order_columns {M : machine} (o : order) (cols : list string) : Prop :=
  exists ty sd ba qa pr,
    cols = [ty; sd; ba; qa; pr]
    /\ ty = match o_type o with
            | Some STOP => "STOP"%string | Some LIMIT => "LIMIT"%string | _ => "MARKET"%string end
    /\ sd = match o_side o with Some SELL => "SELL"%string | _ => "BUY"%string end
    /\ ba = match o_amount o with BaseAmount x => ffmt3 x | _ => EmptyString end
    /\ qa = match o_amount o with QuoteAmount x => ffmt3 x | _ => EmptyString end
    /\ match o_price o with
       | Some p => (fltb (fofZ 0) p = true -> pr = ffmt3 p)
                   /\ (fltb (fofZ 0) p = false -> pr = EmptyString)
       | None => pr = EmptyString
       end.
