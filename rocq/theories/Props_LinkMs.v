(** C68: what a base station is asked to send reaches the user of a mobile station's link layer unchanged. *)
From Coq Require Import Arith Permutation.
From Verif Require Import Base BitBuffer BitBufferProofs TdmaTime TdmaTimeProofs MacFields TxReceipt Llc LlcSpec UpPathSpec DlSched DlSchedSpec UmacPrecomps UmacBs SlotSpec LmacBs BsMac AirSpec HeardSpec UmacMs MsSpec LmacMs MobileSpec LinkMs LinkMsSpec.
From Verif Require Scrambler DlFacts UlBlockFacts HeardFacts UmacMsFacts LinkMsFacts.
Open Scope nat_scope.

(** Over every history of a base station, a mobile station that listens from the first burst on, in whatever state earlier
    blocks left its upper MAC and its link layer: its user gets, of each timeslot, in the order heard, the data of just those
    messages that were heard, each once, with its address and its kind of service; with the data of the messages that still
    wait it is just the data the base station was asked to send.  In full this would need neither what C67 needs, nor that
    messages are [harmless]. *)
Theorem C68_base_to_user_partial : forall c s log t mevs lm um before out0 ll, cell_ok c = true -> (forall k, 1 <= k <= 4 -> bs_history c k s log) ->
  (forall k, 1 <= k <= 4 -> Forall UmacMsFacts.short (sends k (fun _ => idle_ts) (events_of log)) /\ Forall harmless (sends k (fun _ => idle_ts) (events_of log))) ->
  Forall first_free (events_of log) -> starts_at log t -> overhears log mevs ->
  lms_code lm = Some (Scrambler.scramb_get_init (cf_mcc c) (cf_mnc c) (cf_colour c)) -> lms_time lm = Some t -> ms_run before ums_new = Ok (um, out0) -> link_reached ll ->
  exists slots, (forall k, 1 <= k <= 4 -> receives c k log (slots k)) /\
  ((forall k, 1 <= k <= 4 -> hear (slots k) <> Mixed /\ Forall uncut (slots k)) ->
   exists m out is ll', mob_run mevs (mk_mobile lm um) = Ok (m, out) /\ link_all out ll = Ok (is, ll') /\ link_reached ll' /\ forall k, 1 <= k <= 4 -> exists got part, hear (slots k) = Clear got part /\
     map said (inds_on k is) = flat_map carried (flat_map payload got) /\
     Permutation (flat_map carried (sends k (fun _ => idle_ts) (events_of log))) (map said (inds_on k is) ++ flat_map carried (flat_map payload (HeardSpec.queued k s part)))).
Proof. exact LinkMsFacts.user_gets. Qed.
Print Assumptions C68_base_to_user_partial.
(** data of 24 bits for a group and of 152 bits for a radio, which goes in two pieces, in eight bursts *)
Example C68_base_to_user_met : exists s log mevs m out slots is ll', (forall k, 1 <= k <= 4 -> bs_history DlFacts.ex_cell k s log) /\
  (forall k, 1 <= k <= 4 -> Forall UmacMsFacts.short (sends k (fun _ => idle_ts) (events_of log)) /\ Forall harmless (sends k (fun _ => idle_ts) (events_of log))) /\
  Forall first_free (events_of log) /\ starts_at log UmacMsFacts.ex_time /\ overhears log mevs /\ length mevs = 16 /\
  (forall k, 1 <= k <= 4 -> receives DlFacts.ex_cell k log (slots k) /\ hear (slots k) <> Mixed /\ Forall uncut (slots k)) /\
  mob_run mevs (mk_mobile (mk_lms (Some (Scrambler.scramb_get_init (cf_mcc DlFacts.ex_cell) (cf_mnc DlFacts.ex_cell) (cf_colour DlFacts.ex_cell))) (Some UmacMsFacts.ex_time) false) ums_new) = Ok (m, out) /\ link_all out llc_new = Ok (is, ll') /\
  flat_map carried (sends 1 (fun _ => idle_ts) (events_of log)) = LinkMsFacts.ex_said /\ map said (inds_on 1 is) = LinkMsFacts.ex_said.
Proof. exact LinkMsFacts.ex_user. Qed.

(** What the link layer of a base station makes of a request is a harmless message that carries the data of the request:
    unacknowledged data in any state, *)
Theorem C68_unacknowledged_written : forall (q : tla_req unit) s s', wf (lq_sdu q) -> rx_tlunitdata_req q s = Ok s' ->
  exists m, ll_udata s' = ll_udata s ++ [m] /\ tq_addr m = lq_addr q /\ forall a, harmless (a, req_bits m) /\ carried (a, req_bits m) = [(a, true, remaining (lq_sdu q))].
Proof. exact LinkMsFacts.unit_written. Qed.
Print Assumptions C68_unacknowledged_written.
(** and acknowledged data after every history, whether or not an acknowledgement is put into the message, if no frame check
    sequence is asked for. *)
Theorem C68_acknowledged_written_partial : forall l log (s : llc unit) id rep q ev s', llc_run l llc_new = Ok (log, s) -> log_ok [] [] log -> wf (lq_sdu q) -> lq_fcs q = false -> rx_tldata_req id rep q s = Ok (ev, s') ->
  exists m, ev = [LQueued id m] /\ tq_addr m = lq_addr q /\ forall a, harmless (a, req_bits m) /\ carried (a, req_bits m) = [(a, false, remaining (lq_sdu q))].
Proof. exact LinkMsFacts.plain_written. Qed.
Print Assumptions C68_acknowledged_written_partial.
(** Refuted: the same with a frame check sequence.  It is announced and never appended, so that the receiver throws the message
    away unless the data happen to end in the right one, and stops on data of 32 bits. *)
Theorem C68_fcs_refuted : forall l log (s : llc unit) id rep q ev s', llc_run l llc_new = Ok (log, s) -> log_ok [] [] log -> wf (lq_sdu q) -> lq_fcs q = true -> rx_tldata_req id rep q s = Ok (ev, s') ->
  exists m, ev = [LQueued id m] /\ forall a, (length (remaining (lq_sdu q)) = 32 -> ~ harmless (a, req_bits m)) /\ (fcs_fine true (remaining (lq_sdu q)) = false -> carried (a, req_bits m) = []).
Proof. exact LinkMsFacts.checked_written. Qed.
Print Assumptions C68_fcs_refuted.
(** after a radio's data in the same timeslot, whose acknowledgement goes into the message *)
Example C68_written_met : exists log s, llc_run [LInd (mk_time 3 1 1 0) HeardFacts.ex_radio (Some (UlBlockFacts.ex_bits ([false; false; false; true; true] ++ UlBlockFacts.ex_text 9)))] llc_new = Ok (log, s) /\ log_ok (P := unit) [] [] log /\
  Forall (fun q => wf (lq_sdu q)) [LinkMsFacts.ex_req false 40; LinkMsFacts.ex_req true 40; LinkMsFacts.ex_req true 32] /\ fcs_fine true (UlBlockFacts.ex_text 40) = false /\
  match rx_tldata_req 7 tx_new (LinkMsFacts.ex_req false 40) s with Ok ([LQueued _ m], _) => bl_parse (req_bits m) = Some (AData false true false (UlBlockFacts.ex_text 40)) | _ => False end /\
  match rx_tldata_req 7 tx_new (LinkMsFacts.ex_req true 40) s, rx_tldata_req 7 tx_new (LinkMsFacts.ex_req true 32) s with Ok ([LQueued _ m], _), Ok ([LQueued _ m'], _) => carried (None, req_bits m) = [] /\ ind_panics (req_bits m') = true | _, _ => False end.
Proof. exact LinkMsFacts.ex_written. Qed.
