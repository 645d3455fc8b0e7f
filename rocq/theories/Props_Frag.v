(** Property theorems for C13 (fill bits), C14 (downlink fragmentation) and C15 (uplink reassembly). *)
From Verif Require Import Base BitBuffer BitBufferProofs BitBufferOps Codec MacFields MacPdus Layout LayoutProofs MacSpec MacFacts
  FillBits BsFrag FragSpec FillProofs FragProofs FragFacts TxReceipt TdmaTime TdmaTimeProofs Defrag DefragSpec DefragProofs.
Open Scope N_scope.

(** * C13 *)

(** A PDU of header, SDU and [k] bits of padding (a one, then zeroes), followed by anything: the receiver,
    with its cursor behind the header and told the length of the PDU, removes exactly the padding. *)
Theorem C13_padding_removed : forall b hdr sdu k rest,
  wf b -> window b = hdr ++ sdu ++ pad k ++ rest -> (bpos b - bstart b)%nat = length hdr -> (0 < k)%nat ->
  get_num_fill_bits b (length hdr + length sdu + k) = Ok k.
Proof. exact num_fill_exact. Qed.
Print Assumptions C13_padding_removed.
Example C13_padding_removed_nontrivial :
  let b := mkbb [5; 160; 0] 2 6 22 false in
  wf b /\ window b = firstn 4 (window b) ++ [false; true; true; false] ++ pad 9 ++ skipn 17 (window b) /\ get_num_fill_bits b (4 + 4 + 9) = Ok 9%nat.
Proof. split; [repeat constructor; cbn; lia|]. split; vm_compute; reflexivity. Qed.

(** Nothing is removed when the flag is set but there is no one-bit behind the header. *)
Theorem C13_no_padding : forall b len, wf b -> (len <= length (window b))%nat ->
  (forall i, (bpos b - bstart b <= i < len)%nat -> nth i (window b) false = false) -> get_num_fill_bits b len = Ok 0%nat.
Proof. exact num_fill_none. Qed.
Print Assumptions C13_no_padding.
Example C13_no_padding_nontrivial : get_num_fill_bits (mkbb [128; 0] 0 1 16 false) 16 = Ok 0%nat.
Proof. reflexivity. Qed.

(** A length beyond the window is a panic; the callers must not let that happen. *)
Theorem C13_length_beyond_window : forall b len, wf b -> (length (window b) < len)%nat -> (bpos b - bstart b < len)%nat -> get_num_fill_bits b len = Panic.
Proof. exact num_fill_panics. Qed.
Print Assumptions C13_length_beyond_window.

(** The amount of padding computed by the sender is the least that reaches an octet boundary, or what the slot has left. *)
Theorem C13_padding_amount : forall len cap,
  (((len + fill_bytealigned len) mod 8 = 0)%nat /\ (fill_bytealigned len < 8)%nat /\
   forall k, ((len + k) mod 8 = 0)%nat -> (fill_bytealigned len <= k)%nat) /\
  ((cap <= len)%nat -> fill_required len cap = 0%nat) /\
  ((len <= cap)%nat -> (len + fill_required len cap <= cap)%nat /\
     (((len + fill_required len cap) mod 8 = 0)%nat \/ (len + fill_required len cap = cap)%nat) /\ (fill_required len cap < 8)%nat).
Proof. exact (fun len cap => conj (fill_bytealigned_spec len) (fill_required_spec len cap)). Qed.
Print Assumptions C13_padding_amount.
Example C13_padding_amount_nontrivial : fill_required 43 268 = 5%nat /\ fill_required 266 268 = 2%nat /\ fill_required 268 268 = 0%nat.
Proof. repeat split. Qed.

(** Writing [n] bits of padding, or padding to the end of the block, writes a one and then zeroes. *)
Theorem C13_padding_written : (forall n, writes (fill_write (Some n)) (pad n)) /\
  (forall b, wf b -> autoexp b = false -> exists b', fill_write None b = Ok b' /\ wrote b b' (pad (length (remaining b)))).
Proof. exact (conj fill_write_some fill_write_none). Qed.
Print Assumptions C13_padding_written.
Example C13_padding_written_nontrivial : fill_write (Some 5%nat) (mkbb [255; 255] 0 3 16 false) = Ok (mkbb [240; 255] 0 8 16 false).
Proof. reflexivity. Qed.

(** * C14 *)

(** Whatever blocks are offered, in whatever order and number: the fragmenter does not panic, every piece
    fits the block it is put in, and if it says it is done the receiver of FragSpec.v, fed with the slots
    (each possibly followed by other PDUs), reassembles exactly the SDU, which is then reported transmitted.
    Missing: blocks in which header and SDU would end inside an incomplete last octet ([whole_octets]); see
    [C14_last_octet_refuted]. *)
Theorem C14_reassembly_partial : forall r sdu rep blks,
  mr_valid r = true -> wf sdu -> bpos sdu = bstart sdu -> pending rep -> (mr_is_null r = true -> window sdu = []) ->
  Forall block_ok blks -> Forall (fun b => whole_octets (width (mr_layout r)) (length (window sdu)) (length (remaining b))) blks ->
  exists f out dn f', fg_new r sdu rep = Ok f /\ fg_run f blks = Ok (out, dn, f') /\
    Forall (fun o => (0 < length (fst o) <= snd o)%nat) out /\
    (dn = true -> (forall slots, Forall2 arrives out slots -> rx_all slots = Some (window sdu)) /\ transmitted rep (fg_rep f')).
Proof. exact fragmentation_exact. Qed.
Print Assumptions C14_reassembly_partial.
Example C14_reassembly_nontrivial :
  let sdu := mkbb (repeat 165 60) 0 0 475 false in
  let blks := [bb_new 268; bb_new 124; bb_new 20; bb_new 268] in
  mr_valid lost_hdr = true /\ wf sdu /\ Forall block_ok blks /\ pending (Some tx_new) /\
  Forall (fun b => whole_octets (width (mr_layout lost_hdr)) (length (window sdu)) (length (remaining b))) blks /\
  match fg_new lost_hdr sdu (Some tx_new) with
  | Ok f => match fg_run f blks with
            | Ok (out, dn, _) => dn = true /\ map (fun o => length (fst o)) out = [268; 124; 20; 128]%nat
            | _ => False end
  | _ => False end.
Proof.
  cbv zeta. split; [reflexivity|]. split; [repeat constructor; cbn; lia|].
  split; [repeat constructor; cbn; lia|]. split; [reflexivity|].
  split; [repeat constructor; vm_compute; right; lia|]. vm_compute. split; reflexivity.
Qed.

(** It finishes as soon as enough blocks have room for the minimum piece. *)
Theorem C14_terminates_partial : forall r sdu rep blks,
  mr_valid r = true -> wf sdu -> bpos sdu = bstart sdu -> pending rep -> (mr_is_null r = true -> window sdu = []) ->
  Forall block_ok blks -> Forall (fun b => whole_octets (width (mr_layout r)) (length (window sdu)) (length (remaining b))) blks ->
  (2 + (length (window sdu) + 11) / 12 <= length (filter (fun b => (32 <=? length (remaining b)) && (width (mr_layout r) <=? length (remaining b)))%nat blks))%nat ->
  exists f out f', fg_new r sdu rep = Ok f /\ fg_run f blks = Ok (out, true, f').
Proof. exact fragmentation_terminates. Qed.
Print Assumptions C14_terminates_partial.

(** When the fragmenter is dropped, the report says transmitted if it finished and discarded if not. *)
Theorem C14_report_partial : forall r sdu rep blks,
  mr_valid r = true -> wf sdu -> bpos sdu = bstart sdu -> pending rep -> (mr_is_null r = true -> window sdu = []) ->
  Forall block_ok blks -> Forall (fun b => whole_octets (width (mr_layout r)) (length (window sdu)) (length (remaining b))) blks ->
  exists f out dn f' rep', fg_new r sdu rep = Ok f /\ fg_run f blks = Ok (out, dn, f') /\ fg_drop f' = Ok rep' /\
    if dn then transmitted rep rep' else discarded rep rep'.
Proof. exact fragmentation_report. Qed.
Print Assumptions C14_report_partial.

(** A PDU that ends inside the incomplete last octet of a 268-bit slot: the receiver gets 221 of 225 bits. *)
Theorem C14_last_octet_refuted :
  mr_valid lost_hdr = true /\ wf lost_buf /\ window lost_buf = (repeat true 225%nat) /\ block_ok (bb_new 268) /\
  exists w f', lost_run = Ok ([(w, 268%nat)], true, f') /\ length w = 268%nat /\ rx_all [w] = Some (repeat true 221%nat).
Proof. exact last_octet_lost. Qed.
Print Assumptions C14_last_octet_refuted.

(** * C15 *)

(** After every history of starts, continuations, ends, ticks and resets on all timeslots, the end of an
    SDU hands out exactly what was collected for that radio on that timeslot plus the last fragment, with
    the start's address; or, if nothing is collected (never started, ended, timed out, too long), nothing
    of anyone's data.  The code does not panic. *)
Theorem C15_reassembly_partial : forall h t ssi f, Forall df_time_ok h -> vtime t -> wf f ->
  exists d o d' f', df_run defrag_new h = Ok d /\ insert_last f ssi t d = Ok (o, d', f') /\
    ((exists a aie bits last b, collected (tm_t t) ssi h a aie bits last /\ N.of_nat (length bits + length (remaining f)) <= 4096 /\
        o = Some b /\ df_addr b = a /\ remaining (df_bits b) = bits ++ remaining f) \/
     ((forall a aie bits last, collected (tm_t t) ssi h a aie bits last -> 4096 < N.of_nat (length bits + length (remaining f))) /\ empty_handout o)).
Proof. exact reassembly_exact. Qed.
Print Assumptions C15_reassembly_partial.
Example C15_reassembly_nontrivial :
  let h := [DfStart (mk_time 2 1 1 0) (mk_addr 77 false SsiIssi) false (mkbb [240] 0 0 8 false);
            DfStart (mk_time 3 1 1 0) (mk_addr 77 false SsiIssi) true (mkbb [255] 0 0 8 false);
            DfTick (mk_time 2 2 1 0); DfNext (mk_time 2 3 1 0) 77 (mkbb [240] 0 4 8 false); DfEnd (mk_time 3 3 1 0) 77 (mkbb [1] 0 0 8 false)] in
  Forall df_time_ok h /\ coll 2 77 h = Some (mk_addr 77 false SsiIssi, false, [true; true; true; true; false; false; false; false; false; false; false; false], mk_time 2 3 1 0) /\ coll 3 77 h = None.
Proof. cbv zeta. split; [repeat constructor; cbn; try lia; unfold isbyte; lia|]. split; vm_compute; reflexivity. Qed.

(** There is at most one collection, it depends only on the events of that radio and timeslot (and ticks),
    and a tick more than 40 slots after the last fragment ends it. *)
Theorem C15_collection_unique : forall ts ssi h a aie bits last a' aie' bits' last',
  collected ts ssi h a aie bits last -> collected ts ssi h a' aie' bits' last' -> a = a' /\ aie = aie' /\ bits = bits' /\ last = last'.
Proof. exact collected_fun. Qed.
Print Assumptions C15_collection_unique.
Theorem C15_independent_of_others : forall ts ssi h a aie bits last,
  collected ts ssi h a aie bits last <-> collected ts ssi (filter (df_about ts ssi) h) a aie bits last.
Proof. exact independence. Qed.
Print Assumptions C15_independent_of_others.
Theorem C15_stale_discarded : forall ts ssi h a aie bits last t d, collected ts ssi h a aie bits last -> tdiff t last = Ok d -> (40 < d)%Z ->
  forall a' aie' bits' last', ~ collected ts ssi (h ++ [DfTick t]) a' aie' bits' last'.
Proof. exact stale_gone. Qed.
Print Assumptions C15_stale_discarded.
Theorem C15_encryption_flag : forall h t ssi, Forall df_time_ok h -> vtime t ->
  exists d x, df_run defrag_new h = Ok d /\ get_aie_info ssi t d = Ok x /\
    (x = true <-> exists a bits last, collected (tm_t t) ssi h a true bits last).
Proof. exact aie_exact. Qed.
Print Assumptions C15_encryption_flag.

(** The code hands out an empty SDU with address zero for a reassembly that timed out ... *)
Theorem C15_empty_delivery_refuted :
  Forall df_time_ok ghost_h /\ (forall a aie bits last, ~ collected 1 1234 ghost_h a aie bits last) /\
  exists d b d' f', df_run defrag_new ghost_h = Ok d /\
    insert_last (mkbb [85] 0 0 8 false) 1234 (mk_time 1 12 1 0) d = Ok (Some b, d', f') /\
    df_addr b = mk_addr 0 false SsiUnknown /\ window (df_bits b) = [].
Proof. exact ghost_delivery. Qed.
Print Assumptions C15_empty_delivery_refuted.
(** ... and without ticks (the base station never calls [age_buffers]) a reassembly 29 multiframes old is delivered. *)
Theorem C15_no_timeout_without_tick_refuted :
  Forall df_time_ok late_h /\ exists d b d' f', df_run defrag_new late_h = Ok d /\
    insert_last (mkbb [85] 0 0 8 false) 1234 (mk_time 1 1 30 0) d = Ok (Some b, d', f') /\
    df_addr b = mk_addr 1234 false SsiIssi /\ length (window (df_bits b)) = 16%nat.
Proof. exact late_delivery. Qed.
Print Assumptions C15_no_timeout_without_tick_refuted.
