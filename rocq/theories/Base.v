(** * Base: bytes, bounded integers, readers and panics.

    This file models the parts of Rust's standard library and of the [bytes]
    crate that open-dis-rust uses:
    - fixed-width integers (u8/u16/u32/u64, two's complement i8..i64 and the
      bit patterns of f32/f64) as naturals below [256^k];
    - [bytes::BytesMut] as a list of bytes that [put_*] appends to;
    - [bytes::Buf] as the list of bytes still to be read, [get_*] taking
      big-endian integers from its front and panicking when too few remain;
    - a Rust panic as an explicit [Panic] outcome. *)
From Coq Require Export String.
From Coq Require Export List NArith ZArith Lia Bool.
From Coq Require Import Eqdep_dec ZifyBool ZifyNat ZifyN.
Export ListNotations.
Open Scope N_scope.
Open Scope list_scope.

(** ** Outcomes *)

(** Why a Rust call panicked. *)
Inductive panic :=
| Underflow        (** [bytes::Buf::get_*] with too few bytes remaining *)
| ArithOverflow    (** integer overflow with overflow checks enabled *)
| IndexOutOfBounds (** slice index past the end *)
| ExpectFailed     (** [Result::expect] on [Err] *)
| NotImplemented.  (** [unimplemented!()] *)

(** The result of running a Rust function that may panic. *)
Inductive outcome (A : Type) :=
| Ok (a : A)
| Panic (p : panic).
Arguments Ok {A} a.
Arguments Panic {A} p.

(** Overflow behaviour of [+]/[*] on integers: [Checked] is a debug build (or
    [overflow-checks = true]), [Wrapping] a release build. *)
Inductive profile := Checked | Wrapping.

(** Lengths of lists as binary naturals ([usize] in the code). *)
Definition lenN {A} (l : list A) : N := N.of_nat (length l).

(** ** Fixed-width integers *)

(** An unsigned integer of [k] bytes. The proof is a boolean equation, hence
    unique, so two values with the same number are equal (see [uint_eq]). *)
Record uint (k : nat) := mk_uint { uval : N; uok : (uval <? 256 ^ N.of_nat k) = true }.
Arguments mk_uint {k} uval uok.
Arguments uval {k} u.
Arguments uok {k} u.

Definition u8 := uint 1.
Definition u16 := uint 2.
Definition u32 := uint 4.
Definition u64 := uint 8.
(** Signed integers are represented by their two's complement bit pattern. *)
Definition i8 := uint 1.
Definition i16 := uint 2.
Definition i32 := uint 4.
Definition i64 := uint 8.
(** Floats are represented by their IEEE-754 bit pattern ([f32::to_bits]). *)
Definition f32 := uint 4.
Definition f64 := uint 8.

Definition byte := u8.
Definition bytes := list byte.

Lemma uint_eq k (a b : uint k) : uval a = uval b -> a = b.
Proof.
  destruct a as [a pa], b as [b pb]; cbn; intros ->.
  f_equal. apply (UIP_dec bool_dec).
Qed.

Lemma uint_lt k (a : uint k) : uval a < 256 ^ N.of_nat k.
Proof. apply N.ltb_lt, uok. Qed.

Lemma uint_mod_ok k n : (n mod 256 ^ N.of_nat k <? 256 ^ N.of_nat k) = true.
Proof. apply N.ltb_lt, N.mod_lt, N.pow_nonzero; discriminate. Qed.

(** [x as uN] for a non-negative [x]: truncation to the low [k] bytes. The
    comparison first keeps in-range values syntactically small. *)
Definition as_uint (k : nat) (n : N) : uint k := mk_uint (n mod 256 ^ N.of_nat k) (uint_mod_ok k n).
Definition as_u8 : N -> u8 := as_uint 1.
Definition as_u16 : N -> u16 := as_uint 2.
Definition as_u32 : N -> u32 := as_uint 4.
Definition as_u64 : N -> u64 := as_uint 8.

Lemma as_uint_val k n : n < 256 ^ N.of_nat k -> uval (as_uint k n) = n.
Proof. intros H; cbn; apply N.mod_small, H. Qed.

Lemma as_uint_id k (u : uint k) : as_uint k (uval u) = u.
Proof. apply uint_eq, as_uint_val, uint_lt. Qed.

(** [uN::try_from(n)]: [None] when the number does not fit. *)
Definition try_uint (k : nat) (n : N) : option (uint k) :=
  if n <? 256 ^ N.of_nat k then Some (as_uint k n) else None.

(** ** Big-endian encoding *)

(** [k] bytes of [n], most significant first (higher bytes are dropped). *)
Fixpoint be_encode (k : nat) (n : N) : bytes :=
  match k with
  | O => []
  | S k' => as_u8 (n / 256 ^ N.of_nat k') :: be_encode k' n
  end.

(** The number whose big-endian digits are the given bytes. *)
Fixpoint be_decode_acc (acc : N) (bs : bytes) : N :=
  match bs with
  | [] => acc
  | b :: bs' => be_decode_acc (256 * acc + uval b) bs'
  end.
Definition be_decode (bs : bytes) : N := be_decode_acc 0 bs.

(** ** Writers: [bytes::BufMut::put_u8] .. [put_f64] *)
Definition put_uint {k} (u : uint k) : bytes := be_encode k (uval u).
Definition put_u8 (u : u8) : bytes := put_uint u.
Definition put_u16 (u : u16) : bytes := put_uint u.
Definition put_u32 (u : u32) : bytes := put_uint u.
Definition put_u64 (u : u64) : bytes := put_uint u.
Definition put_i8 (u : i8) : bytes := put_uint u.
Definition put_i16 (u : i16) : bytes := put_uint u.
Definition put_i32 (u : i32) : bytes := put_uint u.
Definition put_i64 (u : i64) : bytes := put_uint u.
Definition put_f32 (u : f32) : bytes := put_uint u.
Definition put_f64 (u : f64) : bytes := put_uint u.

(** ** Readers *)

Definition reader (A : Type) := bytes -> outcome (A * bytes).

Definition ret {A} (a : A) : reader A := fun bs => Ok (a, bs).
Definition bind {A B} (r : reader A) (k : A -> reader B) : reader B :=
  fun bs => match r bs with
            | Ok (a, rest) => k a rest
            | Panic p => Panic p
            end.
Notation "'let*' x := r 'in' k" := (bind r (fun x => k))
  (at level 200, x name, r at level 100, k at level 200, right associativity).

Definition rfail {A} (p : panic) : reader A := fun _ => Panic p.

(** [bytes::Buf::get_u8] .. [get_f64]: the [bytes] crate panics when fewer than
    [k] bytes remain. *)
Definition get_uint (k : nat) : reader (uint k) :=
  fun bs => if Nat.leb k (length bs)
            then Ok (as_uint k (be_decode (firstn k bs)), skipn k bs)
            else Panic Underflow.
Definition get_u8 : reader u8 := get_uint 1.
Definition get_u16 : reader u16 := get_uint 2.
Definition get_u32 : reader u32 := get_uint 4.
Definition get_u64 : reader u64 := get_uint 8.
Definition get_i8 : reader i8 := get_uint 1.
Definition get_i16 : reader i16 := get_uint 2.
Definition get_i32 : reader i32 := get_uint 4.
Definition get_i64 : reader i64 := get_uint 8.
Definition get_f32 : reader f32 := get_uint 4.
Definition get_f64 : reader f64 := get_uint 8.

(** [for _ in 0..n { v.push(read(buf)) }] *)
Fixpoint repeat_read {A} (n : nat) (r : reader A) : reader (list A) :=
  match n with
  | O => ret []
  | S n' => let* x := r in let* xs := repeat_read n' r in ret (x :: xs)
  end.

(** [while buf.has_remaining() { v.push(buf.get_u8()) }] *)
Definition read_remaining : reader bytes := fun bs => Ok (bs, []).

(** [[0; n]] and [buf.put_bytes(0, n)] *)
Definition zero_bytes (n : nat) : bytes := repeat (as_u8 0) n.

(** Fixed-size arrays [[T; n]]: lists with a (unique) proof of their length. *)
Record array (A : Type) (n : nat) := mk_array { elems : list A; elems_ok : Nat.eqb (length elems) n = true }.
Arguments mk_array {A n} elems elems_ok.
Arguments elems {A n} a.
Arguments elems_ok {A n} a.

Lemma array_eq A n (a b : array A n) : elems a = elems b -> a = b.
Proof.
  destruct a as [a pa], b as [b pb]; cbn; intros ->.
  f_equal. apply (UIP_dec bool_dec).
Qed.

Lemma array_length A n (a : array A n) : length (elems a) = n.
Proof. apply Nat.eqb_eq, elems_ok. Qed.

(** Default array contents: [n] copies of [x]. *)
Lemma repeat_ok {A} (x : A) n : Nat.eqb (length (repeat x n)) n = true.
Proof. rewrite repeat_length; apply Nat.eqb_refl. Qed.
Definition array_repeat {A} (x : A) (n : nat) : array A n := mk_array (repeat x n) (repeat_ok x n).

(** [let mut a = [0; n]; for x in &mut a { *x = read(buf) }]. The default case is
    unreachable: [repeat_read n] returns [n] elements. *)
Definition to_array {A} (n : nat) (d : A) (l : list A) : array A n :=
  match Bool.bool_dec (Nat.eqb (length l) n) true with
  | left H => mk_array l H
  | right _ => array_repeat d n
  end.
Definition read_array {A} (n : nat) (d : A) (r : reader A) : reader (array A n) :=
  let* l := repeat_read n r in ret (to_array n d l).

(** [Result<T, E>] of Rust. *)
Inductive result (A E : Type) :=
| ROk (a : A)
| RErr (e : E).
Arguments ROk {A E} a.
Arguments RErr {A E} e.

(** ** Writers that may panic *)
Definition writer := outcome bytes.
Definition wapp (a b : writer) : writer :=
  match a with
  | Ok x => match b with Ok y => Ok (x ++ y) | Panic p => Panic p end
  | Panic p => Panic p
  end.
Fixpoint wconcat (l : list writer) : writer :=
  match l with
  | [] => Ok []
  | w :: l' => wapp w (wconcat l')
  end.
