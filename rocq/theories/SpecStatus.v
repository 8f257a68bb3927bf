(** * Specification vocabulary for histories of status record setters (C89).
    Nothing here models code; [apply] calls the modelled API. *)
From Verif Require Import Base EnumModel Enums Header Spec.

(** A call of a setter of [PduStatusRecord]. *)
Inductive setter :=
| SetTei (x : TransferredEntityIndicator) | SetLvc (x : LVCIndicator) | SetCei (x : CoupledExtensionIndicator)
| SetDti (x : DetonationTypeIndicator) | SetRai (x : RadioAttachedIndicator) | SetIai (x : IntercomAttachedIndicator)
| SetFti (x : FireTypeIndicator) | SetIsm (x : PduStatusIFFSimulationMode) | SetAii (x : ActiveInterrogationIndicator)
| SetBits (v : u8).
Definition apply (op : setter) (s : PduStatusRecord) : outcome PduStatusRecord :=
  match op with
  | SetTei x => Ok (sr_set_tei x s) | SetLvc x => Ok (sr_set_lvc x s) | SetCei x => Ok (sr_set_cei x s)
  | SetDti x => sr_set_dti x s | SetRai x => sr_set_rai x s | SetIai x => sr_set_iai x s
  | SetFti x => sr_set_fti x s | SetIsm x => sr_set_ism x s | SetAii x => sr_set_aii x s
  | SetBits v => sr_set_bit4_5 v s
  end.
Fixpoint run (ops : list setter) (s : PduStatusRecord) : outcome PduStatusRecord :=
  match ops with
  | [] => Ok s
  | op :: ops' => match apply op s with Panic e => Panic e | Ok s' => run ops' s' end
  end.

(** IEEE 1278.1, PDU status: first bit, number of bits, and the number that the call puts there. *)
Definition slot (op : setter) : N * N * N :=
  match op with
  | SetTei x => (0, 1, code x) | SetLvc x => (1, 2, code x) | SetCei x => (3, 1, code x)
  | SetDti x => (4, 2, code x) | SetRai x => (4, 2, code x) | SetIai x => (4, 2, code x)
  | SetFti x => (4, 1, code x) | SetIsm x => (4, 1, code x) | SetAii x => (5, 1, code x)
  | SetBits v => (4, 2, uval v)
  end.
(** What the call puts into bit [i], if it writes that bit. *)
Definition puts (op : setter) (i : N) : option bool :=
  let '(lo, w, v) := slot op in if (lo <=? i) && (i <? lo + w) then Some (N.testbit v (i - lo)) else None.
(** The last call that writes bit [i] decides it. *)
Fixpoint last_put (ops : list setter) (i : N) (before : bool) : bool :=
  match ops with
  | [] => before
  | op :: ops' => last_put ops' i (match puts op i with Some b => b | None => before end)
  end.
Definition bit (s : PduStatusRecord) (i : N) : bool := N.testbit (uval (sr_to_u8 s)) i.
(** The raw setter takes two bits. *)
Definition allowed (op : setter) : Prop := match op with SetBits v => uval v < 4 | _ => True end.
(** The getter that belongs to the setter returns what the setter was given. *)
Definition reads (op : setter) (s : PduStatusRecord) : Prop :=
  match op with
  | SetTei x => sr_tei s = Ok x | SetLvc x => sr_lvc s = Ok x | SetCei x => sr_cei s = Ok x
  | SetDti x => sr_get_dti s = x | SetRai x => sr_get_rai s = x | SetIai x => sr_get_iai s = x
  | SetFti x => sr_get_fti s = x | SetIsm x => sr_get_ism s = x | SetAii x => sr_get_aii s = x
  | SetBits v => sr_bit4_5 s = v
  end.
(** Two calls that write no bit in common. *)
Definition apart (a b : setter) : Prop := forall i, puts a i = None \/ puts b i = None.
