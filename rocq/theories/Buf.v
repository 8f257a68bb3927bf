(** * The interface [bytes::Buf] that the decoders are generic in.
    [deserialize<B: Buf>(buf: &mut B)] (common/pdu.rs:38, 44; pdu_macro.rs:20, 31, 257, 326, 345
    and every record type) works for every buffer type; the rest of the model uses a plain byte
    string. Here a decoder is a program over the two operations of [Buf] that the
    crate uses: the [get_*] methods and [remaining] ([has_remaining] is [remaining() > 0]). *)
From Verif Require Import Base.

Inductive program (A : Type) : Type :=
| Return (a : A)
| Abort (e : panic)
| Get (k : nat) (next : uint k -> program A)
| Remaining (next : N -> program A).
Arguments Return {A} a.
Arguments Abort {A} e.
Arguments Get {A} k next.
Arguments Remaining {A} next.

(** A type [B: Buf] (common/pdu.rs:38): the bytes that a buffer stands for, and the two operations. *)
Record buffer_type := mk_buffer_type {
  buffer : Type;
  content : buffer -> bytes;
  buf_remaining : buffer -> N;
  buf_get : forall k, buffer -> outcome (uint k * buffer) }.

(** The contract of [Buf]: [remaining] counts the bytes; [get_*] takes the next bytes, most
    significant first, or panics when there are too few. *)
Definition lawful (T : buffer_type) : Prop :=
  (forall s, buf_remaining T s = N.of_nat (length (content T s))) /\
  (forall k s, match buf_get T k s with
     | Ok (x, s') => (k <= length (content T s))%nat /\
                     x = as_uint k (be_decode (firstn k (content T s))) /\ content T s' = skipn k (content T s)
     | Panic e => (length (content T s) < k)%nat /\ e = Underflow
     end).

Fixpoint run (T : buffer_type) {A} (P : program A) (s : buffer T) : outcome (A * buffer T) :=
  match P with
  | Return a => Ok (a, s)
  | Abort e => Panic e
  | Get k next => match buf_get T k s with
                  | Panic e => Panic e
                  | Ok (x, s') => run T (next x) s'
                  end
  | Remaining next => run T (next (buf_remaining T s)) s
  end.

(** ** [&[u8]], [Bytes], [BytesMut]: one piece of memory. *)
Definition flat_buffer : buffer_type := mk_buffer_type bytes (fun s => s) (fun s => N.of_nat (length s)) get_uint.

(** ** A buffer in several pieces ([Chain]), as the [bytes] crate (Cargo.toml:17, not in
    the repository) treats it:
    [chunk] is the first piece that is not empty, [advance] drops bytes piece by piece, and
    [get_*] reads from the chunk if it is long enough and otherwise collects the bytes with
    [copy_to_slice], which takes what each chunk has. *)
Fixpoint chunk (s : list bytes) : bytes :=
  match s with
  | [] => []
  | [] :: s' => chunk s'
  | c :: _ => c
  end.
Fixpoint advance (n : nat) (s : list bytes) : list bytes :=
  match s with
  | [] => []
  | c :: s' => if Nat.leb n (length c) then skipn n c :: s' else advance (n - length c) s'
  end.
Fixpoint copy_to_slice (fuel n : nat) (s : list bytes) : bytes * list bytes :=
  match fuel with
  | O => ([], s)
  | S fuel' =>
      if Nat.eqb n 0 then ([], s) else
      let cnt := Nat.min (length (chunk s)) n in
      let '(out, s') := copy_to_slice fuel' (n - cnt) (advance cnt s) in
      (firstn cnt (chunk s) ++ out, s')
  end.
Definition chunked_get (k : nat) (s : list bytes) : outcome (uint k * list bytes) :=
  if Nat.ltb (length (List.concat s)) k then Panic Underflow
  else if Nat.leb k (length (chunk s)) then Ok (as_uint k (be_decode (firstn k (chunk s))), advance k s)
  else let '(out, s') := copy_to_slice k k s in Ok (as_uint k (be_decode out), s').
Definition chunked_buffer : buffer_type :=
  mk_buffer_type (list bytes) (@List.concat byte) (fun s => fold_right (fun c n => lenN c + n) 0 s) chunked_get.
