(** Model of crates/tetra-entities/src/llc/llc_bs_ms.rs: the basic link.
    Simplifications: log output is dropped; the fields of the primitives that the link layer only
    passes on (req_handle, endpoint_id, subscriber_class, air_interface_encryption, data class,
    stealing_repeats_flag) are one opaque value [P], and of a received indication only the address,
    the PDU and the time are kept.  A [TxReporter] is shared with the upper MAC: the model keeps its
    state with the message it belongs to, each acknowledged request having its own (a new one is made
    if the caller gives none, llc_bs_ms.rs:301), named by a number; marks made by the upper MAC are
    calls of [llc_umac_mark].  Each function returns what it pushed to the message queue, in order,
    together with the marks it made on reporters and a note of each message it accepted. *)
From Verif Require Import Base AMap TdmaTime TxReceipt BitBuffer Codec MacFields LlcPdus Fcs.
Open Scope N_scope.

(** crates/tetra-saps/src/lcmc/fields/chan_alloc_req.rs:5-19 [CmceChanAllocReq]; allocation type and
    up/downlink assignment by raw value; [carrier] is always [None] *)
Record chan_req := mk_chreq { cq_usage : option N; cq_timeslots : list bool; cq_type : N; cq_assigned : N }.
(** crates/tetra-saps/src/lcmc/enums/alloc_type.rs:5-12, ul_dl_assignment.rs:5-10 *)
Definition CA_REPLACE : N := 0.
Definition CA_ADDITIONAL : N := 1.
Definition CA_QUIT_AND_GO : N := 2.
Definition UD_BOTH : N := 3.

(** crates/tetra-pdus/src/llc/consts/timers.rs:4, consts.rs:9 *)
Definition T251_SENDER_RETRY_TIMER : Z := frames 4.
Definition N252_BL_MAX_TLSDU_RETRANSMITS_ACKED : N := 3.

Section Llc.
Context {P : Type}.

(** crates/tetra-saps/src/tma: [TmaUnitdataReq] with the time of its message; [tq_reporter] names the
    reporter passed along *)
Record tma_req := mk_tmareq {
  tq_time : tdma_time; tq_pdu : bitbuf; tq_addr : tetra_addr; tq_steal : bool;
  tq_chan : option chan_req; tq_reporter : option N; tq_info : option P }.
(** crates/tetra-saps/src/tla: [TlaTlDataReqBl], [TlaTlUnitdataReqBl] *)
Record tla_req := mk_tlareq {
  lq_time : tdma_time; lq_sdu : bitbuf; lq_addr : tetra_addr; lq_steal : bool; lq_fcs : bool;
  lq_chan : option chan_req; lq_reporter : option N; lq_info : option P }.
(** crates/tetra-saps/src/tla: [TlaTlDataIndBl] ([ti_unit = false]), [TlaTlUnitdataIndBl] *)
Record tla_ind := mk_tlaind { ti_unit : bool; ti_time : tdma_time; ti_addr : tetra_addr; ti_link : Z; ti_sdu : option bitbuf; ti_fcs : bool }.

(** llc_bs_ms.rs:26-53 [ExpectedInAck]; [ts] and [bl_type] are never read *)
Record lmsg := mk_lmsg {
  lm_id : N; lm_addr : tetra_addr; lm_ns : N; lm_first : tdma_time;
  lm_submitted : option tdma_time; lm_done : option tdma_time;
  lm_rep : tx_reporter; lm_buf : tma_req; lm_count : N }.
(** llc_bs_ms.rs:56-63 [ScheduledOutAck]; [ts] is [t_start.t] *)
Record outack := mk_outack { oa_addr : tetra_addr; oa_start : tdma_time; oa_nr : N }.
(** llc_bs_ms.rs:65-81 *)
Record llc := mk_llc {
  ll_time : tdma_time; ll_acks : list outack; ll_out : list lmsg; ll_udata : list tma_req; ll_seq : amap N }.
(** llc_bs_ms.rs:84-93 *)
Definition llc_new : llc := mk_llc time_default [] [] [] [].

(** What a call did: a request became message [id] in the outbound list; a primitive went to the
    upper MAC; the reporter of message [id] to [a] was marked; an indication went to the MLE. *)
Inductive lev := LQueued (id : N) (m : tma_req) | LSubmit (m : tma_req) | LMark (a : tetra_addr) (id : N) (op : tx_op) | LToMle (i : tla_ind).

Definition set_acks (s : llc) (a : list outack) : llc := mk_llc (ll_time s) a (ll_out s) (ll_udata s) (ll_seq s).
Definition set_out (s : llc) (o : list lmsg) : llc := mk_llc (ll_time s) (ll_acks s) o (ll_udata s) (ll_seq s).

(** llc_bs_ms.rs:96-103 *)
Definition schedule_outgoing_ack (t : tdma_time) (a : tetra_addr) (ns : N) (s : llc) : llc :=
  set_acks s (ll_acks s ++ [mk_outack a t ns]).
(** llc_bs_ms.rs:106-115: first entry for this timeslot and SSI, removed *)
Fixpoint take_ack (tn : Z) (ssi : N) (l : list outack) : option (N * list outack) :=
  match l with
  | [] => None
  | a :: t =>
      if ((tm_t (oa_start a) =? tn)%Z && (ad_ssi (oa_addr a) =? ssi))%bool then Some (oa_nr a, t)
      else match take_ack tn ssi t with Some (n, t) => Some (n, a :: t) | None => None end
  end.
Definition get_out_ack_seq_if_any (tn : Z) (a : tetra_addr) (s : llc) : option N * llc :=
  match take_ack tn (ad_ssi a) (ll_acks s) with Some (n, l) => (Some n, set_acks s l) | None => (None, s) end.
(** llc_bs_ms.rs:119-124 *)
Definition get_next_send_seq (a : tetra_addr) (s : llc) : N * llc :=
  let vs := match aget (ad_ssi a) (ll_seq s) with Some v => v | None => 0 end in
  (vs, mk_llc (ll_time s) (ll_acks s) (ll_out s) (ll_udata s) (aset (ad_ssi a) (N.lxor vs 1) (ll_seq s))).
(** llc_bs_ms.rs:127-135: first submitted entry for this SSI, removed *)
Fixpoint take_expected (ssi : N) (l : list lmsg) : option (lmsg * list lmsg) :=
  match l with
  | [] => None
  | m :: t =>
      if ((ad_ssi (lm_addr m) =? ssi) && match lm_submitted m with Some _ => true | None => false end)%bool then Some (m, t)
      else match take_expected ssi t with Some (x, t) => Some (x, m :: t) | None => None end
  end.
(** llc_bs_ms.rs:139-179 *)
Definition process_incoming_ack (a : tetra_addr) (nr : N) (s : llc) : res (list lev * llc) :=
  match take_expected (ad_ssi a) (ll_out s) with
  | None => Ok ([], s)
  | Some (m, rest) =>
      match lm_done m with
      | None => Ok ([], set_out s (m :: rest))
      | Some _ =>
          if lm_ns m =? nr then
            _ <- tx_mark_acknowledged (lm_rep m) ;;
            Ok ([LMark (lm_addr m) (lm_id m) MarkAcknowledged], set_out s rest)
          else Ok ([], set_out s (m :: rest))
      end
  end.

(** llc_bs_ms.rs:196-232: the header, then the SDU from its position to its end *)
Definition llc_pdu (header : wr) (sdu : bitbuf) : res bitbuf :=
  b <- header (bb_new_autoexpand 32) ;;
  n <- get_len_remaining sdu ;;
  '(b, _) <- copy_bits n sdu b ;;
  seek 0 b.
Definition rx_tlunitdata_req (q : tla_req) (s : llc) : res llc :=
  b <- llc_pdu (bu_write (mk_bludata false)) (lq_sdu q) ;;
  Ok (mk_llc (ll_time s) (ll_acks s) (ll_out s)
        (ll_udata s ++ [mk_tmareq (lq_time q) b (lq_addr q) (lq_steal q) (lq_chan q) (lq_reporter q) (lq_info q)]) (ll_seq s)).
(** llc_bs_ms.rs:250-339; [id] and [rep] are the reporter given by the caller or the new one *)
Definition rx_tldata_req (id : N) (rep : tx_reporter) (q : tla_req) (s : llc) : res (list lev * llc) :=
  assert (negb (lq_steal q)) ;;;
  assert (negb (ssi_type_eqb (ad_type (lq_addr q)) SsiGssi)) ;;;
  let '(out_ack_n, s) := get_out_ack_seq_if_any (tm_t (lq_time q)) (lq_addr q) s in
  let '(ns, s) := get_next_send_seq (lq_addr q) s in
  b <- match out_ack_n with
       | Some n => llc_pdu (bad_write (mk_bladata (lq_fcs q) n ns)) (lq_sdu q)
       | None => llc_pdu (bd_write (mk_bldata (lq_fcs q) ns)) (lq_sdu q)
       end ;;
  let m := mk_tmareq (lq_time q) b (lq_addr q) (lq_steal q) (lq_chan q) (Some id) (lq_info q) in
  Ok ([LQueued id m], set_out s (ll_out s ++ [mk_lmsg id (lq_addr q) ns (lq_time q) None None rep m 0])).

(** llc_bs_ms.rs:362-380, 416-560: types 0..7 are the basic link, 8..12 and 15 the advanced link
    (logged and ignored), 13 and 14 panic (407-409).  [pdu = None] panics (368). *)
Definition bl_header (ty : N) : reader (bool * option N * option N) :=
  if (ty =? 0) || (ty =? 4) then rbind bad_read (fun p => rret (bad_fcs p, Some (bad_ns p), Some (bad_nr p)))
  else if (ty =? 1) || (ty =? 5) then rbind bd_read (fun p => rret (bd_fcs p, Some (bd_ns p), None))
  else if (ty =? 3) || (ty =? 7) then rbind ba_read (fun p => rret (ba_fcs p, None, Some (ba_nr p)))
  else if (ty =? 2) || (ty =? 6) then rbind bu_read (fun p => rret (bu_fcs p, None, None))
  else rpanic.
Definition rx_ind_bl (t : tdma_time) (a : tetra_addr) (pdu : bitbuf) (s : llc) : res (list lev * llc) :=
  bits <- peek_bits pdu 4 ;;
  match bits with
  | None => Ok ([], s)
  | Some ty =>
      match bl_header ty pdu with
      | Panic => Panic
      | Err _ => Ok ([], s)
      | Ok ((has_fcs, ns, nr), pdu) =>
          good <- (if has_fcs then check_fcs pdu else Ok true) ;;
          if negb good then Ok ([], s)
          else
            let s := match ns with Some n => schedule_outgoing_ack t a n s | None => s end in
            '(ev, s) <- match nr with Some n => process_incoming_ack a n s | None => Ok ([], s) end ;;
            if (ty =? 3) || (ty =? 7) then Ok (ev, s)
            else
              pdu <- set_raw_start (bpos pdu) pdu ;;
              n <- get_len_remaining pdu ;;
              let i := mk_tlaind ((ty =? 2) || (ty =? 6)) t a (tm_t (add_timeslots t (-2)))
                         (if (0 <? n)%nat then Some pdu else None) has_fcs in
              Ok (ev ++ [LToMle i], s)
      end
  end.
Definition rx_unitdata_ind (t : tdma_time) (a : tetra_addr) (pdu : option bitbuf) (s : llc) : res (list lev * llc) :=
  pdu <- unwrap pdu ;;
  bits <- peek_bits pdu 4 ;;
  match bits with
  | None => Ok ([], s)
  | Some ty =>
      if ty <=? 7 then rx_ind_bl t a pdu s
      else if (ty =? 13) || (ty =? 14) then Panic
      else Ok ([], s)
  end.

(** llc_bs_ms.rs:235-247 *)
Definition submit_acked (m : lmsg) (t : tdma_time) : res (list lev * lmsg) :=
  let b := lm_buf m in
  rep <- tx_reset (lm_rep m) ;;
  Ok ([LMark (lm_addr m) (lm_id m) Reset; LSubmit (mk_tmareq t (tq_pdu b) (tq_addr b) (tq_steal b) (tq_chan b) (tq_reporter b) (tq_info b))],
      mk_lmsg (lm_id m) (lm_addr m) (lm_ns m) (lm_first m) (Some t) None rep b (lm_count m)).

(** llc_bs_ms.rs:571-606: one entry; the [bool] says it is to be given up.  [age as u32] makes a
    negative age large. *)
Definition retransmit_one (now : tdma_time) (m : lmsg) : res (list lev * lmsg * bool) :=
  let m := match lm_done m with
           | None => if tx_is_transmitted (lm_rep m) || tx_is_discarded (lm_rep m)
                     then mk_lmsg (lm_id m) (lm_addr m) (lm_ns m) (lm_first m) (lm_submitted m) (Some now) (lm_rep m) (lm_buf m) (lm_count m)
                     else m
           | Some _ => m
           end in
  match lm_done m with
  | None => Ok ([], m, false)
  | Some d =>
      age <- tdiff now d ;;
      if (T251_SENDER_RETRY_TIMER <=? Z.modulo age (2 ^ 32))%Z then
        if lm_count m <? N252_BL_MAX_TLSDU_RETRANSMITS_ACKED then
          let m := mk_lmsg (lm_id m) (lm_addr m) (lm_ns m) (lm_first m) (lm_submitted m) (lm_done m) (lm_rep m) (lm_buf m) (lm_count m + 1) in
          '(ev, m) <- submit_acked m (forward_to_timeslot now (tm_t (lm_first m))) ;;
          Ok (ev, m, false)
        else Ok ([], m, true)
      else Ok ([], m, false)
  end.
Fixpoint retransmit_all (now : tdma_time) (l : list lmsg) : res (list lev * list lmsg * list N) :=
  match l with
  | [] => Ok ([], [], [])
  | m :: t =>
      '(ev1, m, gone) <- retransmit_one now m ;;
      '(ev2, t, removals) <- retransmit_all now t ;;
      Ok (ev1 ++ ev2, m :: t, if gone : bool then ad_ssi (lm_addr m) :: removals else removals)
  end.
(** llc_bs_ms.rs:609-620 *)
Fixpoint remove_lost (removals : list N) (l : list lmsg) : res (list lev * list lmsg) :=
  match removals with
  | [] => Ok ([], l)
  | ssi :: r =>
      '(m, l) <- unwrap (take_expected ssi l) ;;
      _ <- tx_mark_lost (lm_rep m) ;;
      '(ev, l) <- remove_lost r l ;;
      Ok (LMark (lm_addr m) (lm_id m) MarkLost :: ev, l)
  end.
(** llc_bs_ms.rs:562-623 *)
Definition submit_retransmissions (s : llc) : res (list lev * llc) :=
  '(ev1, out, removals) <- retransmit_all (ll_time s) (ll_out s) ;;
  '(ev2, out) <- remove_lost removals out ;;
  Ok (ev1 ++ ev2, set_out s out).
(** llc_bs_ms.rs:625-661; [blocked] is the set of SSIs seen with a submitted message *)
Fixpoint submit_free_loop (now : tdma_time) (blocked : list N) (l : list lmsg) : res (list lev * list lmsg) :=
  match l with
  | [] => Ok ([], [])
  | m :: t =>
      let ssi := ad_ssi (lm_addr m) in
      match lm_submitted m with
      | Some _ => '(ev, t) <- submit_free_loop now (ssi :: blocked) t ;; Ok (ev, m :: t)
      | None =>
          if existsb (N.eqb ssi) blocked then '(ev, t) <- submit_free_loop now blocked t ;; Ok (ev, m :: t)
          else
            '(ev1, m) <- submit_acked m (forward_to_timeslot now (tm_t (lm_first m))) ;;
            '(ev2, t) <- submit_free_loop now (ssi :: blocked) t ;;
            Ok (ev1 ++ ev2, m :: t)
      end
  end.
Definition submit_free_messages (s : llc) : res (list lev * llc) :=
  '(ev, out) <- submit_free_loop (ll_time s) [] (ll_out s) ;; Ok (ev, set_out s out).
(** llc_bs_ms.rs:664-721; [timeslots[ack.ts - 1]] is in range for 2..4 *)
Definition ack_reply (now : tdma_time) (a : outack) : res lev :=
  let ts := tm_t (oa_start a) in
  let steal := ((2 <=? ts) && (ts <=? 4))%Z%bool in
  b <- ba_write (mk_black false (oa_nr a)) (bb_new_autoexpand 5) ;;
  b <- seek 0 b ;;
  Ok (LSubmit (mk_tmareq (add_timeslots now (-2)) b (oa_addr a) steal
    (if steal then Some (mk_chreq None (map (Z.eqb ts) [1; 2; 3; 4]%Z) CA_REPLACE UD_BOTH) else None) None None)).
Fixpoint mapM_acks (now : tdma_time) (l : list outack) : res (list lev) :=
  match l with [] => Ok [] | a :: t => e <- ack_reply now a ;; es <- mapM_acks now t ;; Ok (e :: es) end.
Definition submit_ack_replies (s : llc) : res (list lev * llc) :=
  ev <- mapM_acks (ll_time s) (ll_acks s) ;; Ok (ev, set_acks s []).
(** llc_bs_ms.rs:724-731 *)
Definition submit_udata (s : llc) : list lev * llc :=
  (map LSubmit (ll_udata s), mk_llc (ll_time s) (ll_acks s) (ll_out s) [] (ll_seq s)).

(** llc_bs_ms.rs:786-788 *)
Definition llc_tick_start (t : tdma_time) (s : llc) : llc := mk_llc t (ll_acks s) (ll_out s) (ll_udata s) (ll_seq s).
(** llc_bs_ms.rs:790-809 *)
Definition llc_tick_end (s : llc) : res (list lev * llc) :=
  '(ev1, s) <- submit_retransmissions s ;;
  '(ev2, s) <- submit_free_messages s ;;
  '(ev3, s) <- submit_ack_replies s ;;
  let '(ev4, s) := submit_udata s in
  Ok (ev1 ++ ev2 ++ ev3 ++ ev4, s).

(** The upper MAC marks reporter [id] (bs_frag.rs:227, 240, bs_sched.rs:605, 740, 804): the state the
    link layer sees is that of the message carrying it.  A mark that does not apply panics there. *)
Fixpoint mark_all (id : N) (op : tx_op) (l : list lmsg) : res (list lmsg) :=
  match l with
  | [] => Ok []
  | m :: t =>
      m <- (if lm_id m =? id then r <- tx_apply op (lm_rep m) ;;
              Ok (mk_lmsg (lm_id m) (lm_addr m) (lm_ns m) (lm_first m) (lm_submitted m) (lm_done m) r (lm_buf m) (lm_count m))
            else Ok m) ;;
      t <- mark_all id op t ;; Ok (m :: t)
  end.
Definition llc_umac_mark (id : N) (op : tx_op) (s : llc) : res llc :=
  out <- mark_all id op (ll_out s) ;; Ok (set_out s out).

(** A history: everything that can call the link layer. *)
Inductive lcall :=
| LTickStart (t : tdma_time)
| LTickEnd
| LDataReq (id : N) (rep : tx_reporter) (q : tla_req)
| LUnitdataReq (q : tla_req)
| LInd (t : tdma_time) (a : tetra_addr) (pdu : option bitbuf)
| LUmacMark (id : N) (op : tx_op).
Definition llc_step (c : lcall) (s : llc) : res (list lev * llc) :=
  match c with
  | LTickStart t => Ok ([], llc_tick_start t s)
  | LTickEnd => llc_tick_end s
  | LDataReq id rep q => rx_tldata_req id rep q s
  | LUnitdataReq q => s <- rx_tlunitdata_req q s ;; Ok ([], s)
  | LInd t a pdu => rx_unitdata_ind t a pdu s
  | LUmacMark id op => s <- llc_umac_mark id op s ;; Ok ([], s)
  end.
(** The log of a history: each call followed by what it did. *)
Inductive litem := LCall (c : lcall) | LDid (e : lev).
Fixpoint llc_run (l : list lcall) (s : llc) : res (list litem * llc) :=
  match l with
  | [] => Ok ([], s)
  | c :: t => '(ev, s) <- llc_step c s ;; '(log, s) <- llc_run t s ;; Ok (LCall c :: map LDid ev ++ log, s)
  end.
End Llc.
Arguments tma_req P : clear implicits.
Arguments tla_req P : clear implicits.
Arguments lmsg P : clear implicits.
Arguments llc P : clear implicits.
Arguments lev P : clear implicits.
Arguments lcall P : clear implicits.
Arguments litem P : clear implicits.
