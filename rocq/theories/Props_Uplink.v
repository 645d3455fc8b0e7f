(** Property theorems: what a radio sends in pieces arrives whole (C63), and what a message too long does (C47). *)
From Verif Require Import Base BitBuffer BitBufferProofs MacFields TdmaTime TdmaTimeProofs UlSched DlSched UmacPrecomps TxReceipt UmacBs UmacSched UlBlockSpec UlBlockFacts SlotSpec BsMac AirSpec AirRun UplinkSpec UplinkProofs UplinkFacts.
From Verif Require DlFacts AirFacts.
Open Scope N_scope.

(** Every history of the base station, whatever bursts it received, is a history of acts of PDUs, as [UplinkSpec.lived] says. *)
Theorem C63_every_history : forall c s log, cell_ok c = true -> bs_reached c s log -> exists ns, lived c (flat_map (fun x => snd (fst x)) log) ns (st_um s).
Proof. exact station_lived. Qed.
Print Assumptions C63_every_history.
Theorem C63_every_upper_history : forall c connected u0 cn t evs u log, umac_new c connected = Ok u0 -> vtime t -> Forall ev_fine evs -> Forall ev_chan evs ->
  um_run c (UeTick cn t :: evs) u0 = Ok (u, log) -> exists ns, lived c log ns u.
Proof. exact traced_all. Qed.
Print Assumptions C63_every_upper_history.
Example C63_history_met : cell_ok DlFacts.ex_cell = true /\ exists s log, bs_reached DlFacts.ex_cell s log /\ (length log = 4)%nat.
Proof. exact ex_station. Qed.

(** What each act makes the base station hand up, in terms of all acts before it: a PDU with a whole SDU exactly that SDU; the
    last part of a message all the parts its sender sent on this timeslot, in order, from its last first part on. *)
Theorem C63_acts_explained : forall c log ns u, lived c log ns u -> forall before n after, ns = before ++ n :: after -> explained before n.
Proof. exact all_notes_explained. Qed.
Print Assumptions C63_acts_explained.
(** Nothing is handed up that was not sent, apart from the empty SDU from nobody. *)
Theorem C63_only_what_was_sent : forall c log ns u e o m t b a scr, lived c log ns u -> In (e, o, m) log -> In (OutSdu t b a scr) o ->
  exists before n after, ns = before ++ n :: after /\ origin before n t b a.
Proof. exact sent_before. Qed.
Print Assumptions C63_only_what_was_sent.

(** A radio begins a message ... *)
Theorem C63_begun : forall c log ns u i pdu a d pre u' o m, lived c log ns u -> wf pdu -> bpos pdu = bstart pdu -> vtime (tv_time i) -> on_channel i = true ->
  block_sent (tv_chan i) (window pdu) (pre ++ [AFirst a d]) -> forallb no_last pre = true -> um_step c (UeBlock i pdu) u = Ok (u', o, m) ->
  exists ms, map nt_act ms = pre ++ [AFirst a d] /\ lived c (log ++ [(UeBlock i pdu, o, m)]) (ns ++ ms) u' /\ collecting (tm_t (tv_time i)) (ad_ssi a) (ns ++ ms) a d.
Proof. exact begun. Qed.
Print Assumptions C63_begun.
(** ... continues it in a slot granted to it ... *)
Theorem C63_continued : forall c log ns u i pdu ssi a bits d u' o m, lived c log ns u -> wf pdu -> bpos pdu = bstart pdu -> vtime (tv_time i) -> on_channel i = true ->
  block_sent (tv_chan i) (window pdu) [AMore d] -> ul_get_slot_owner (tv_time i) (tv_blk i) (ds_ul (um_sch u)) = Ok (Some ssi) ->
  collecting (tm_t (tv_time i)) ssi ns a bits -> N.of_nat (length bits + length d) <= 4096 -> um_step c (UeBlock i pdu) u = Ok (u', o, m) ->
  exists ms, map nt_act ms = [AMore d] /\ lived c (log ++ [(UeBlock i pdu, o, m)]) (ns ++ ms) u' /\ collecting (tm_t (tv_time i)) ssi (ns ++ ms) a (bits ++ d).
Proof. exact goes_on. Qed.
Print Assumptions C63_continued.
(** ... is disturbed by nothing else, whatever other radios send and however long it takes ... *)
Theorem C63_undisturbed : forall c log ns u k ssi a bits e u' o m, lived c log ns u -> ev_fine e -> ev_chan e -> elsewhere k ssi u e -> collecting k ssi ns a bits ->
  um_step c e u = Ok (u', o, m) -> exists ms, lived c (log ++ [(e, o, m)]) (ns ++ ms) u' /\ collecting k ssi (ns ++ ms) a bits.
Proof. exact undisturbed. Qed.
Print Assumptions C63_undisturbed.
(** ... and with the last part the whole message is handed up, once, with its address and exactly its bits. *)
Theorem C63_whole_message_partial : forall c log ns u i pdu ssi a bits req d plan, lived c log ns u -> wf pdu -> bpos pdu = bstart pdu -> vtime (tv_time i) -> on_channel i = true ->
  block_sent (tv_chan i) (window pdu) (ALast req d :: plan) -> (forall l, begins (tv_chan i) (window pdu) l -> ~ hostile (tv_chan i) l) ->
  ul_get_slot_owner (tv_time i) (tv_blk i) (ds_ul (um_sch u)) = Ok (Some ssi) -> collecting (tm_t (tv_time i)) ssi ns a bits -> N.of_nat (length bits + length d) <= 4096 ->
  exists u' b rest, um_step c (UeBlock i pdu) u = Ok (u', OutSdu (tv_time i) b a (tv_scr i) :: rest, []) /\ remaining b = bits ++ d.
Proof. exact whole_message. Qed.
Print Assumptions C63_whole_message_partial.
(** a random access with the first 56 bits, a slot of 264 bits more, and the last 254 *)
Example C63_whole_message_met : exists log ns u, lived DlFacts.ex_cell log ns u /\ collecting 3 1001 ns ex_radio (ex_x ++ ex_text 264) /\
  block_sent UcSchF (window (ex_bits ex_last_block)) [ALast None (ex_text 254)] /\ (forall l, begins UcSchF (window (ex_bits ex_last_block)) l -> ~ hostile UcSchF l) /\
  ul_get_slot_owner (tv_time ex_i2nd) (tv_blk ex_i2nd) (ds_ul (um_sch u)) = Ok (Some 1001).
Proof. exact ex_collecting. Qed.

(** Refuted: parts of different messages are never joined.  A first part is kept for ever (the reassembler's timeout is never
    asked for): sixteen frames and a whole other message of the same radio later, its next last part is appended to it. *)
Theorem C63_unfinished_forgotten_refuted : exists ns log u, lived DlFacts.ex_cell log ns u /\
  map nt_act ns = [AAck ex_radio; AAsk ex_radio 1; AFirst ex_radio ex_x; AAck ex_radio; AAsk ex_radio 1; ASdu ex_radio (rev ex_x)] /\
  ul_get_slot_owner (tv_time ex_i3) (tv_blk ex_i3) (ds_ul (um_sch u)) = Ok (Some 1001) /\
  exists u' b rest, um_step DlFacts.ex_cell (UeBlock ex_i3 (ex_bits ex_last_block)) u = Ok (u', OutSdu (tv_time ex_i3) b ex_radio (tv_scr ex_i3) :: rest, []) /\ remaining b = ex_x ++ ex_text 254.
Proof. exact stale_joined. Qed.
Print Assumptions C63_unfinished_forgotten_refuted.
(** Refuted: a message too long is dropped.  An empty SDU from nobody is handed up in its place. *)
Theorem C63_too_long_dropped_refuted : exists u, reached DlFacts.ex_cell u /\ exists u' t b scr,
  um_step DlFacts.ex_cell (UeBlock ex_i16 (ex_bits ex_last_block)) u = Ok (u', [OutSdu t b (mk_addr 0 false SsiUnknown) scr], []) /\ remaining b = [].
Proof. exact from_nobody. Qed.
Print Assumptions C63_too_long_dropped_refuted.
(** Refuted: a radio cannot stop the base station.  A message above 4096 bits that ends with a request for a slot does: the
    grant goes to the address of nobody, which cannot be written. *)
Theorem C47_too_long_refuted : exists u, reached DlFacts.ex_cell u /\ um_step DlFacts.ex_cell (UeTick false (add_timeslots (um_time u) 1)) u = Panic.
Proof. exact long_stops. Qed.
Print Assumptions C47_too_long_refuted.
