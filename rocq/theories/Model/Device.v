(** Output files on a device that runs out of space.

    Programs.v assumes that a file opened for writing accepts all bytes.  Here a file accepts
    a given number of bytes; what is written beyond is lost. *)

From Coq Require Import ZArith String Ascii Bool.
From Coq Require Import List.
From Verif.Model Require Import Outcome Machine Types Eval Convert Proto MachineIEEE Files Programs.
Import ListNotations.

(** google::protobuf::io::OstreamOutputStream (util/proto.h:109): bytes are collected in a
    buffer of CopyingOutputStreamAdaptor::kDefaultBlockSize bytes. *)
Definition block : nat := Z.to_nat 8192.

Record ostream : Type := OStream {
  on_disk : bytes;      (* what has reached the file *)
  pending : bytes;      (* what is in the buffer *)
  room : nat;           (* how many more bytes the device accepts *)
  failed : bool         (* CopyingOutputStreamAdaptor::failed_ *)
}.

(** CopyingOutputStreamAdaptor::WriteBuffer (a block of the stream buffer's size goes
    directly to the file). *)
Definition WriteBuffer (s : ostream) : ostream :=
  OStream (on_disk s ++ firstn (room s) (pending s)) [] (room s - length (pending s))
          (room s <? length (pending s))%nat.

(** One more byte: a full buffer is written first. After a failure nothing is written. *)
Definition put (s : ostream) (b : Z) : ostream :=
  if failed s then s
  else if (length (pending s) =? block)%nat then
    let s' := WriteBuffer s in
    if failed s' then s' else OStream (on_disk s') [b] (room s') false
  else OStream (on_disk s) (pending s ++ [b]) (room s) false.

(** util/proto.h:119-129 the loop of WriteDelimitedMessagesToOStream: [false] = "Cannot
    serialize the message". *)
Fixpoint write_messages (T : message_type) (s : ostream) (ms : list (msg T)) : ostream * bool :=
  match ms with
  | [] => (s, true)
  | m :: ms' =>
    let s' := fold_left put (serialize_delimited T m) s in
    if failed s' then (s', false) else write_messages T s' ms'
  end.

(** The destructors of the streams write what is left in the buffer, and ignore errors. *)
Definition close_stream (s : ostream) : bytes :=
  if failed s then on_disk s else on_disk (WriteBuffer s).

(** util/proto.h:104-129, 132-144 on a file that accepts [space] bytes: the content of the
    file afterwards, and whether the status is Ok. *)
Definition WriteDelimitedMessagesOn (T : message_type) (space : nat) (ms : list (msg T)) : bytes * bool :=
  let '(s, ok) := write_messages T (OStream [] [] space false) ms in (close_stream s, ok).

(** The same for the bytes of the messages one after the other (device_bytes in
    Proofs/DeviceProofs.v says that it is the same). *)
Definition write_bytes (space : nat) (b : bytes) : bytes * bool :=
  let s := fold_left put b (OStream [] [] space false) in (close_stream s, negb (failed s)).

(** convert.cc:534-553: the output files one after the other; CheckOk stops at the first
    error. The k-th file accepts [space k] bytes. *)
Fixpoint store (space : nat -> nat) (k : nat) (files : list (string * bytes)) : list (string * bytes) * bool :=
  match files with
  | [] => ([], true)
  | (name, b) :: files' =>
    let '(w, ok) := write_bytes (space k) b in
    if ok then let '(ws, ok') := store space (S k) files' in ((name, w) :: ws, ok')
    else ([(name, w)], false)
  end.

Section Programs.
  Context {lm : libm} {as_ : bool}.
  Local Notation I := (ieee lm as_).
  Context (env : environment) (sc : @scanner I).

  (** convert.cc:422-559 main: as in Programs.v; writing the files is the last thing the
      program does. *)
  Definition convert_main_on (space : nat -> nat) (f : convert_flags) : outcome convert_result :=
    do r <- convert_main env sc f ;
    let '(files, ok) := store space 0 (c_files r) in
    Done (ConvertResult (if ok then c_exit r else EXIT_FAILURE) files (c_gaps r)).
End Programs.

Section Trader.
  Context {lm : libm} {as_ : bool}.
  Local Notation I := (ieee lm as_).

  (** trader.cc:150-243 main: the log files are std::ofstreams whose state is never looked at;
      the k-th log file accepts [space k] bytes. *)
  Fixpoint store_logs (space : nat -> nat) (k : nat) (logs : list (string * string)) : list (string * string) :=
    match logs with
    | [] => []
    | (name, text) :: logs' => (name, String.substring 0 (space k) text) :: store_logs space (S k) logs'
    end.

  Definition trader_main_on (env : environment) (sort : list (@evaluation_result I) -> list (@evaluation_result I))
             (fuel : nat) (sched : list nat) (space : nat -> nat) (f : trader_flags) : outcome (@trader_result) :=
    do r <- @trader_main lm as_ env sort fuel sched f ;
    Done (TraderResult (t_exit r) (t_printed r) (store_logs space 0 (t_logs r))).
End Trader.
