(** Property theorems: received uplink blocks (C48, C47). *)
From Coq Require Import Arith.
From Verif Require Import Base BitBuffer BitBufferProofs Codec TypedFields MacFields MacPdus Layout MacSpec TdmaTime TdmaTimeProofs Defrag DefragSpec FragSpec UlSched DlSched UmacPrecomps UmacBs
  UlBlockSpec UlBlockPdu UmacSched UlBlockFacts.
From Verif Require DlFacts.
Open Scope nat_scope.

(** In every state the upper MAC can reach, every block, whatever its bits, is taken apart from the left as [UlBlockSpec]
    says: every PDU is dealt with once, with exactly its own SDU bits, the next one begins behind it, and the work ends. *)
Theorem C48_any_block : forall c u i pdu, reached c u -> wf pdu -> bpos pdu = bstart pdu -> vtime (tv_time i) -> on_channel i = true ->
  exists r, rx_tmv_unitdata_ind i pdu u = r /\ heard i (window pdu) u r.
Proof. exact block_heard. Qed.
Print Assumptions C48_any_block.
Example C48_any_met : exists u, reached DlFacts.ex_cell u /\ wf (ex_bits ex_two) /\ bpos (ex_bits ex_two) = bstart (ex_bits ex_two) /\ vtime (tv_time ex_full) /\ on_channel ex_full = true.
Proof.
  destruct ex_reached as (u & _ & R). exists u. destruct (ex_bits_ok ex_two) as (A & B & _). destruct ex_full_ok as (C & D). exact (conj R (conj A (conj B (conj C D)))).
Qed.

(** What the radios put into the block is what happens: the effects of all PDUs, in the order sent, and nothing else; fewer
    than 16 bits left over, and what follows a null PDU, do nothing. *)
Theorem C48_block_as_sent : forall c u i pdu plan, reached c u -> wf pdu -> bpos pdu = bstart pdu -> vtime (tv_time i) -> on_channel i = true ->
  block_sent (tv_chan i) (window pdu) plan -> exists q, does_all i plan u q /\ rx_tmv_unitdata_ind i pdu u = unflag q.
Proof. exact block_as_sent. Qed.
Print Assumptions C48_block_as_sent.
(** the end of an SDU begun in a random access, and a whole SDU: two SDUs are handed on *)
Example C48_as_sent_met : block_sent UcSchF (window (ex_bits ex_end_block)) [ALast None (ex_text 22); ASdu ex_radio (ex_text 27)] /\
  match run_from DlFacts.ex_cell ex_t0 ex_evs with
  | Ok u => match rx_tmv_unitdata_ind ex_owned (ex_bits ex_end_block) u with
            | Ok (_, [OutSdu _ a _ _; OutSdu _ b _ _]) => (length (window a) =? 78)%nat && (length (window b) =? 27)%nat
            | _ => false end
  | _ => false end = true.
Proof. split; [destruct (ex_bits_ok ex_end_block) as (_ & _ & ->); exact (proj2 ex_end_sent)|vm_compute; reflexivity]. Qed.

(** A block of whole SDUs: exactly these are handed on, each once, in order, with the address of its sender, and nothing else changes. *)
Theorem C48_sdus_in_order : forall c u i pdu xs, reached c u -> wf pdu -> bpos pdu = bstart pdu -> vtime (tv_time i) -> on_channel i = true ->
  block_sent (tv_chan i) (window pdu) (map (fun x => ASdu (fst x) (snd x)) xs) ->
  exists outs, rx_tmv_unitdata_ind i pdu u = Ok (u, outs) /\
    Forall2 (fun x o => exists b, wf b /\ bpos b = bstart b /\ window b = snd x /\ o = OutSdu (tv_time i) b (fst x) (tv_scr i)) xs outs.
Proof. exact block_sdus. Qed.
Print Assumptions C48_sdus_in_order.
Example C48_sdus_met : block_sent (tv_chan ex_full) (window (ex_bits ex_two)) (map (fun x => ASdu (fst x) (snd x)) [(ex_radio, ex_text 27); (ex_radio, ex_text 40)]).
Proof. destruct (ex_bits_ok ex_two) as (_ & _ & ->). exact (proj2 ex_two_sent). Qed.

(** Refuted: no PDU that fits the block is lost.  Whatever follows a random access without SDU, an encrypted PDU, or the end
    of an SDU of which nothing was received, is ignored. *)
Theorem C48_after_empty_access_refuted : forall c u i pdu p a n k rest, reached c u -> wf pdu -> bpos pdu = bstart pdu -> vtime (tv_time i) -> on_channel i = true -> tv_chan i = UcSchHu ->
  macc_valid p = true -> mu_enc p = false -> mu_addr p = Some a -> mu_len p = Some n -> (1 <= n)%N -> mu_fill p = (0 <? k) ->
  8 * N.to_nat n = length (enc (macc_layout p)) + k -> window pdu = (enc (macc_layout p) ++ pad k) ++ rest -> exists u', rx_tmv_unitdata_ind i pdu u = Ok (u', []).
Proof. exact lost_after_access. Qed.
Print Assumptions C48_after_empty_access_refuted.
Example C48_after_empty_access_met : on_channel ex_half = true /\ length ex_quiet_block = 92 /\ macc_valid ex_quiet = true /\ mu_fill ex_quiet = (0 <? 4) /\
  8 * N.to_nat 5 = length (enc (macc_layout ex_quiet)) + 4 /\ exists rest, ex_quiet_block = (enc (macc_layout ex_quiet) ++ pad 4) ++ rest /\ 52 = length rest.
Proof. repeat (split; [reflexivity|]). eexists. split; reflexivity. Qed.
Theorem C48_after_encrypted_refuted : forall c u i pdu p a n rest, reached c u -> wf pdu -> bpos pdu = bstart pdu -> vtime (tv_time i) -> on_channel i = true -> (tv_chan i = UcSchF \/ tv_chan i = UcStch) ->
  mdata_valid p = true -> mu_enc p = true -> mu_addr p = Some a -> mu_len p = Some n -> (5 <= n <= 55)%N -> window pdu = enc (mdata_layout p) ++ rest -> 8 * N.to_nat n <= length (window pdu) ->
  rx_tmv_unitdata_ind i pdu u = Ok (u, []).
Proof. exact lost_after_encrypted. Qed.
Print Assumptions C48_after_encrypted_refuted.
Example C48_after_encrypted_met : mdata_valid ex_crypt = true /\ mu_enc ex_crypt = true /\ length ex_crypt_block = 268 /\ exists rest, ex_crypt_block = enc (mdata_layout ex_crypt) ++ rest.
Proof. repeat (split; [reflexivity|]). eexists. reflexivity. Qed.
Theorem C48_after_stray_end_refuted : forall c u i pdu p n sdu k rest, reached c u -> wf pdu -> bpos pdu = bstart pdu -> vtime (tv_time i) -> on_channel i = true -> (tv_chan i = UcSchF \/ tv_chan i = UcStch) ->
  meul_valid p = true -> eu_len p = Some n -> eu_fill p = (0 <? k) -> 8 * N.to_nat n = length (enc (meul_layout p)) + length sdu + k ->
  window pdu = (enc (meul_layout p) ++ sdu ++ pad k) ++ rest -> ul_get_slot_owner (tv_time i) (tv_blk i) (ds_ul (um_sch u)) = Ok None ->
  rx_tmv_unitdata_ind i pdu u = Ok (u, []).
Proof. exact lost_after_end. Qed.
Print Assumptions C48_after_stray_end_refuted.
Example C48_after_stray_end_met : (exists u, reached DlFacts.ex_cell u /\ ul_get_slot_owner (tv_time ex_full) (tv_blk ex_full) (ds_ul (um_sch u)) = Ok None) /\
  length ex_stray_block = 268 /\ exists rest, ex_stray_block = (enc (meul_layout (mk_meul false (Some 4%N) None)) ++ ex_text 22 ++ pad 0) ++ rest.
Proof. split; [destruct ex_no_owner as (u & _ & A & B); eauto|]. split; [reflexivity|]. eexists. reflexivity. Qed.

(** No block stops the upper MAC unless a PDU in it is one of the hostile ones: a request for reservation 15, MAC-U-BLCK,
    a reserved length indication, a PDU said to be shorter than its own header. *)
Theorem C47_upper_mac_partial : forall c u i pdu, reached c u -> wf pdu -> bpos pdu = bstart pdu -> vtime (tv_time i) -> on_channel i = true ->
  (forall l, begins (tv_chan i) (window pdu) l -> ~ hostile (tv_chan i) l) -> exists u' o, rx_tmv_unitdata_ind i pdu u = Ok (u', o).
Proof. exact block_safe. Qed.
Print Assumptions C47_upper_mac_partial.
(** Noise: a block of ones. *)
Example C47_upper_mac_met : forall l, begins UcSchF (repeat true 268) l -> ~ hostile UcSchF l.
Proof.
  intros l H. assert (E : l = repeat true 268).
  { inversion H as [|? acts n l' E B]; subst; [reflexivity|]. exfalso. cbn [first_pdu repeat] in E. discriminate E. }
  subst l. exact (fun F => F).
Qed.

(** Refuted: no bit string received stops the program.  One PDU is enough, in any state, whatever follows it. *)
Theorem C47_upper_mac_refuted : forall c u i pdu, reached c u -> wf pdu -> bpos pdu = bstart pdu -> vtime (tv_time i) -> on_channel i = true ->
  killer (tv_chan i) (window pdu) -> rx_tmv_unitdata_ind i pdu u = Panic.
Proof. exact killed. Qed.
Print Assumptions C47_upper_mac_refuted.
Example C47_upper_mac_refuted_met : killer UcSchF (enc (mdata_layout (ex_data 0 1)) ++ repeat false 231) /\ killer UcSchHu (enc (macc_layout (mk_mul false false (Some ex_radio) None (Some 4%N) None None)) ++ repeat false 56) /\
  killer UcStch (enc (meul_layout (mk_meul false (Some 1%N) None)) ++ repeat false 114) /\ killer UcSchF (enc (ublck_layout (mk_ublck false false 5 1)) ++ repeat false 249).
Proof.
  split; [left; exists (ex_data 0 1), ex_radio, 1%N; eexists; repeat split; try reflexivity; [now left|left; lia]|].
  split; [right; left; exists (mk_mul false false (Some ex_radio) None (Some 4%N) None None), ex_radio, 4%N; eexists; repeat split; try reflexivity; lia|].
  split; [right; right; left; exists (mk_meul false (Some 1%N) None); eexists; repeat split; try reflexivity; now right|].
  right; right; right. exists (mk_ublck false false 5 1). eexists. repeat split; reflexivity.
Qed.
Theorem C47_reservation_15_refuted : forall c u i pdu p a first sdu k, reached c u -> wf pdu -> bpos pdu = bstart pdu -> vtime (tv_time i) -> on_channel i = true -> (tv_chan i = UcSchF \/ tv_chan i = UcStch) ->
  mdata_valid p = true -> mu_enc p = false -> mu_addr p = Some a -> mu_len p = None -> mu_frag p = Some first -> mu_req p = Some 15%N -> mu_fill p = (0 <? k) -> sdu <> [] ->
  window pdu = enc (mdata_layout p) ++ sdu ++ pad k -> rx_tmv_unitdata_ind i pdu u = Panic.
Proof. exact killed15. Qed.
Print Assumptions C47_reservation_15_refuted.
Example C47_reservation_15_met : let p := mk_mul false false (Some ex_radio) None None (Some false) (Some 15%N) in mdata_valid p = true /\ length (enc (mdata_layout p) ++ ex_text 231 ++ pad 0) = 268.
Proof. split; reflexivity. Qed.
