(** Model of the speech block conversions: crates/tetra-entities/src/umac/umac_bs.rs:1598-1623
    [pack_ul_acelp_bits], the conversions in net_brew/entity.rs [handle_ul_voice] (870-904) and
    [handle_voice_frame] (530-537), and the downlink unpacking in umac/subcomp/bs_sched.rs:772-782. *)
From Verif Require Import Base BitBuffer.
Open Scope nat_scope.

Definition TCH_S_CAP := 274.
(** (TCH_S_CAP + 7) / 8 *)
Definition PACKED_TCH_S_BYTES := 35.

(** umac_bs.rs:1613-1618, entity.rs:894-900: one byte from eight one-bit-per-byte entries; indexing
    past the end of the slice panics *)
Fixpoint pack_byte (bits : list N) (chunk_idx bit n : nat) (byte : N) : res N :=
  match n with
  | O => Ok byte
  | S n' =>
      let bit_idx := chunk_idx * 8 + bit in
      byte <- (if bit_idx <? TCH_S_CAP then
                 x <- byte_at bits bit_idx ;; Ok (N.lor byte (shl8 (N.land x 1) (7 - bit)))
               else Ok byte) ;;
      pack_byte bits chunk_idx (S bit) n' byte
  end.
Fixpoint pack_bytes (bits : list N) (chunk_idx n : nat) : res (list N) :=
  match n with
  | O => Ok []
  | S n' => b <- pack_byte bits chunk_idx 0 8 0 ;; t <- pack_bytes bits (S chunk_idx) n' ;; Ok (b :: t)
  end.

(** umac_bs.rs:1598-1623 *)
Definition pack_ul_acelp_bits (bits : list N) : res (option (list N)) :=
  if length bits =? PACKED_TCH_S_BYTES then Ok (Some bits)
  else if length bits <? TCH_S_CAP then Ok None
  else out <- pack_bytes bits 0 PACKED_TCH_S_BYTES ;; Ok (Some out).

(** entity.rs:875-904: the frame sent to the network, if any *)
Definition ul_voice_to_ste (acelp_bits : list N) : res (option (list N)) :=
  if length acelp_bits =? 36 then Ok (Some acelp_bits)
  else if length acelp_bits =? 35 then Ok (Some (0%N :: acelp_bits))
  else if length acelp_bits <? 274 then Ok None
  else out <- pack_bytes acelp_bits 0 35 ;; Ok (Some (0%N :: out)).

(** entity.rs:530-537: the block handed to the jitter buffer, if any *)
Definition ste_to_acelp (data : list N) : option (list N) :=
  if length data <? 36 then None else Some (tl data).

(** bs_sched.rs:773-778: the speech block of a downlink slot *)
Definition dl_speech_block (block : list N) : res bitbuf :=
  let buf := bb_from_vec block in set_raw_end (bstart buf + TCH_S_CAP) buf.
