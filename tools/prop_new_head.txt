(** * Constructors of the record types (C50).
    The list of conjuncts in [C50_arguments_on_wire] is generated by tools/gen_new.py from
    the parameter lists of the Rust functions: the claim is that the arguments appear on the
    wire in the order in which they are passed. *)
From Verif Require Import Base BaseFacts EnumModel Enums EnumFacts Fixed Header PduMacro DataTypes DataTypesFacts Spec Wire WireProofs RecordFacts DatumFacts Constructors.
(** Byte strings are spelled with [big_endian] ([Wire]).  *)

(** ** Specification vocabulary *)
(** The axis-dependent tail of a grid axis record and the data of a grid record. *)
Definition axis_wire (d : GridAxisType) : bytes :=
  match d with
  | FixedSpacing n i => big_endian 2 (uval n) ++ big_endian 2 (uval i)
  | VariableSpacing n i s o xs pad =>
      big_endian 2 (uval n) ++ big_endian 2 (uval i) ++ big_endian 8 (uval s) ++ big_endian 8 (uval o) ++
      flat_map (fun x => big_endian 2 (uval x)) xs ++ flat_map (fun x => big_endian 1 (uval x)) pad
  end.
Definition grid_wire (d : DataRepresentationType) : bytes :=
  match d with
  | Type0 n d p => big_endian 2 (uval n) ++ flat_map (fun x => big_endian 1 (uval x)) d ++ flat_map (fun x => big_endian 1 (uval x)) p
  | Type1 s o n d p => big_endian 4 (uval s) ++ big_endian 4 (uval o) ++ big_endian 2 (uval n) ++
      flat_map (fun x => big_endian 2 (uval x)) d ++ flat_map (fun x => big_endian 1 (uval x)) p
  | Type2 n p d => big_endian 2 (uval n) ++ big_endian 2 (uval p) ++ flat_map (fun x => big_endian 4 (uval x)) d
  end.

(** ** Proofs *)
Lemma be_encode_app k : forall n, be_encode (S k) n = be_encode k (n / 256) ++ [as_u8 n].
Proof.
  induction k as [|k IH]; intros n; [cbn; now rewrite N.div_1_r|].
  change (be_encode (S (S k)) n) with (as_u8 (n / 256 ^ N.of_nat (S k)) :: be_encode (S k) n). rewrite IH.
  cbn [be_encode app]. f_equal. f_equal. rewrite N.div_div by (try discriminate; apply N.pow_nonzero; discriminate).
  rewrite Nat2N.inj_succ, N.pow_succ_r'. reflexivity.
Qed.
Lemma B_mod n : B (n mod 256) = as_u8 n.
Proof. apply uint_eq. unfold B, as_u8, as_uint. cbn [uval]. change (256 ^ N.of_nat 1) with 256. apply N.mod_mod. discriminate. Qed.
Lemma be_encode_mod k : forall n, be_encode k (n mod 256 ^ N.of_nat k) = be_encode k n.
Proof.
  induction k as [|k IH]; intros n; [reflexivity|]. rewrite !be_encode_app.
  assert (P : 256 ^ N.of_nat k <> 0) by (apply N.pow_nonzero; discriminate).
  rewrite Nat2N.inj_succ, N.pow_succ_r'. rewrite N.mod_mul_r by (assumption || discriminate).
  assert (D : (n mod 256 + 256 * ((n / 256) mod 256 ^ N.of_nat k)) / 256 = (n / 256) mod 256 ^ N.of_nat k).
  { rewrite N.add_comm, N.mul_comm, N.div_add_l by discriminate. rewrite (N.div_small (n mod 256)) by (apply N.mod_lt; discriminate). apply N.add_0_r. }
  rewrite D, IH. f_equal. f_equal. rewrite <- (B_mod n). rewrite <- (B_mod (_ + _)). f_equal.
  rewrite N.mul_comm, N.mod_add by discriminate. apply N.mod_mod. discriminate.
Qed.
Lemma put_bytes k (u : uint k) : put_uint u = big_endian k (uval u).
Proof. symmetry. apply big_endian_eq. Qed.
Lemma put_code_bytes k n : put_uint (as_uint k n) = big_endian k n.
Proof. rewrite big_endian_eq. unfold put_uint, as_uint. cbn [uval]. apply be_encode_mod. Qed.
Lemma concat_put_bytes k (l : list (uint k)) : List.concat (map put_uint l) = flat_map (fun x => big_endian k (uval x)) l.
Proof. rewrite flat_map_concat_map. f_equal. apply map_ext. intros. apply put_bytes. Qed.
Lemma raw_bytes (l : bytes) : List.concat (map put_u8 l) = l.
Proof. apply concat_put_u8. Qed.
Ltac wire_eq := rewrite <- ?concat_put_bytes; rewrite <- ?put_bytes; rewrite <- ?put_code_bytes;
  first [reflexivity
    | unfold EntityId_serialize, EntityId_new, EventId_serialize, EventId_new, SimulationAddress_serialize; rewrite <- app_assoc; reflexivity].
Ltac wires := intros; cbv [axis_wire grid_wire];
  try (match goal with d : GridAxisType |- _ => destruct d | d : DataRepresentationType |- _ => destruct d end);
  first [wire_eq | match goal with x : list u8 |- _ => rewrite <- (raw_bytes x) at 2 end; wire_eq].

(** ** C50: what is passed to a constructor is what is sent. *)
Theorem C50_arguments_on_wire :
