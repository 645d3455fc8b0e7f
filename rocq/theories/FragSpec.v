(** Specification of the receiving side of MAC fragmentation (EN 300 392-2 clause 23.4), on plain bit lists.
    A slot is the list of bits from the start of a PDU to the end of the slot. *)
From Verif Require Import Base BitBuffer Codec MacFields MacPdus.
Open Scope N_scope.

(** Padding: a one followed by zeroes. *)
Definition pad (k : nat) : list bool := match k with O => [] | S n => true :: repeat false n end.
(** Remove padding: drop trailing zeroes and the one before them. *)
Fixpoint drop_pad (l : list bool) : list bool :=
  match l with [] => [] | true :: t => t | false :: t => drop_pad t end.
Definition strip (l : list bool) : list bool := rev (drop_pad (rev l)).

(** Parse a header at the start of a slot; return it and its length in bits. *)
Definition parse {A} (r : reader A) (slot : list bool) : option (A * nat) :=
  match bb_from_bitstr slot with
  | Ok b => match r b with Ok (x, b') => Some (x, (bpos b' - bpos b)%nat) | _ => None end
  | _ => None
  end.
(** The SDU bits of a PDU that covers the first [ext] bits of the slot and has a header of [hdr] bits. *)
Definition body (fill : bool) (hdr ext : nat) (slot : list bool) : option (list bool) :=
  if (ext <=? length slot)%nat then
    let s := skipn hdr (firstn ext slot) in Some (if fill then strip s else s)
  else None.
(** Receive a MAC-RESOURCE: length indication 63 means "continues in later slots, covers the slot",
    otherwise it is the length of the PDU in octets.  Result: payload and whether more follows. *)
Definition rx_resource (slot : list bool) : option (list bool * bool) :=
  match parse mr_read slot with
  | Some (p, h) =>
      let more := mr_len p =? 63 in
      match body (mr_fill p) h (if more then length slot else N.to_nat (8 * mr_len p)) slot with
      | Some s => Some (s, more) | None => None end
  | None => None
  end.
(** Receive a continuation: MAC-FRAG (subtype 0) covers the slot, MAC-END (subtype 1) has a length in octets. *)
Definition rx_continuation (slot : list bool) : option (list bool * bool) :=
  match nth_error slot 2 with
  | Some false =>
      match parse mfrag_read slot with
      | Some (fill, h) => match body fill h (length slot) slot with Some s => Some (s, true) | None => None end
      | None => None
      end
  | Some true =>
      match parse mend_read slot with
      | Some (p, h) => match body (me_fill p) h (N.to_nat (8 * me_len p)) slot with Some s => Some (s, false) | None => None end
      | None => None
      end
  | None => None
  end.
(** Reassembly of a list of slots, in order; [None] when something does not parse, is left over or missing. *)
Fixpoint rx_rest (slots : list (list bool)) : option (list bool) :=
  match slots with
  | [] => None
  | s :: t =>
      match rx_continuation s with
      | Some (d, true) => match rx_rest t with Some r => Some (d ++ r) | None => None end
      | Some (d, false) => match t with [] => Some d | _ => None end
      | None => None
      end
  end.
Definition rx_all (slots : list (list bool)) : option (list bool) :=
  match slots with
  | [] => None
  | s :: t =>
      match rx_resource s with
      | Some (d, true) => match rx_rest t with Some r => Some (d ++ r) | None => None end
      | Some (d, false) => match t with [] => Some d | _ => None end
      | None => None
      end
  end.

(** Offering a sequence of blocks to the fragmenter until it says it is done.  The output lists, for
    every block it wrote into, the bits it wrote and the room there was. *)
From Verif Require Import BitBufferProofs BsFrag TxReceipt.
Fixpoint fg_run (f : fragger) (blks : list bitbuf) : res (list (list bool * nat) * bool * fragger) :=
  match blks with
  | [] => Ok ([], false, f)
  | b :: t =>
      ' (dn, f', b') <- fg_next_chunk f b ;;
      let w := bits_rng (bytes b') (bpos b) (bpos b' - bpos b) in
      let out := if (length w =? 0)%nat then [] else [(w, length (remaining b))] in
      if (dn : bool) then Ok (out, true, f')
      else ' (rest, dn, f'') <- fg_run f' t ;; Ok (out ++ rest, dn, f'')
  end.
(** What arrives: the slot begins with what was written and may continue with other PDUs. *)
Definition arrives (o : list bool * nat) (slot : list bool) : Prop :=
  length slot = snd o /\ exists tail, slot = fst o ++ tail.
(** The delivery report (if one was asked for) has not been given yet; it says the SDU was transmitted; it says it was discarded. *)
Definition pending (t : option tx_reporter) : Prop := match t with Some t => tx_byte t = tx_raw TxPending | None => True end.
Definition transmitted (t t' : option tx_reporter) : Prop :=
  match t, t' with Some _, Some t' => tx_byte t' = tx_raw TxTransmitted | None, None => True | _, _ => False end.
Definition discarded (t t' : option tx_reporter) : Prop :=
  match t, t' with Some _, Some t' => tx_byte t' = tx_raw TxDiscarded | None, None => True | _, _ => False end.
(** A block offered by the scheduler: fixed size, octet aligned or full. *)
Definition block_ok (b : bitbuf) : Prop :=
  wf b /\ autoexp b = false /\ (length (remaining b) < 504)%nat /\ ((bpos b - bstart b) mod 8 = 0 \/ length (remaining b) = 0)%nat.
(** The PDU would not end inside an incomplete last octet of the slot. *)
Definition whole_octets (hdr sdu cap : nat) : Prop := (hdr + sdu <= 8 * (cap / 8) \/ cap < hdr + sdu)%nat.
