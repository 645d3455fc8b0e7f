(** What a basic link must do, read off a log of calls and what was done in answer. *)
From Coq Require Import ZArith.
From Verif Require Import Base TdmaTime TxReceipt BitsLib BitBuffer BitBufferProofs MacFields FcsProofs Llc.
Open Scope nat_scope.

(** ** Basic link PDUs as bit strings (EN 300 392-2 clause 21.2.2); [f] says a frame check sequence ends the PDU. *)
Inductive bl_pdu :=
| AData (f nr ns : bool) (sdu : list bool)
| Data (f ns : bool) (sdu : list bool)
| UData (f : bool) (sdu : list bool)
| Ack (f nr : bool) (sdu : list bool).
Definition bl_parse (l : list bool) : option bl_pdu :=
  match l with
  | false :: f :: false :: false :: nr :: ns :: sdu => Some (AData f nr ns sdu)
  | false :: f :: false :: true :: ns :: sdu => Some (Data f ns sdu)
  | false :: f :: true :: false :: sdu => Some (UData f sdu)
  | false :: f :: true :: true :: nr :: sdu => Some (Ack f nr sdu)
  | _ => None
  end.
(** [fcs_of] is the frame check sequence of a message (C25). *)
Definition fcs_fine (f : bool) (sdu : list bool) : bool :=
  negb f || let n := length sdu - 32 in (0 <? n) && (fcs_of (firstn n sdu) =? bits_val (skipn n sdu))%N.
(** A received PDU that is not thrown away. *)
Definition bl_accept (l : list bool) : option bl_pdu :=
  match bl_parse l with
  | Some (AData f _ _ sdu) | Some (Data f _ sdu) | Some (UData f sdu) | Some (Ack f _ sdu) => if fcs_fine f sdu then bl_parse l else None
  | None => None
  end.
Definition send_number (p : bl_pdu) : option bool := match p with AData _ _ ns _ | Data _ ns _ => Some ns | _ => None end.
Definition acked_number (p : bl_pdu) : option bool := match p with AData _ nr _ _ | Ack _ nr _ => Some nr | _ => None end.
Definition sdu_of (p : bl_pdu) : list bool := match p with AData _ _ _ s | Data _ _ s | UData _ s | Ack _ _ s => s end.
Definition numbered (l : list bool) : option bool := match bl_parse l with Some p => send_number p | None => None end.

(** ** Delivery *)
Definition hdr_fcs (p : bl_pdu) : bool := match p with AData f _ _ _ | Data f _ _ | UData f _ | Ack f _ _ => f end.
Definition is_ack (p : bl_pdu) : bool := match p with Ack _ _ _ => true | _ => false end.
Definition is_udata (p : bl_pdu) : bool := match p with UData _ _ => true | _ => false end.
(** Bit patterns on which the link layer panics: PDU types 13 and 14, and a PDU that is nothing but
    a header and a frame check sequence. *)
Definition ind_panics (l : list bool) : bool :=
  match l with
  | true :: true :: x :: y :: _ => xorb x y
  | _ => match bl_parse l with Some p => hdr_fcs p && (length (sdu_of p) =? 32) | None => false end
  end.
Definition to_mle (t : tdma_time) (a : tetra_addr) (p : bl_pdu) (i : tla_ind) : Prop :=
  ti_unit i = is_udata p /\ ti_time i = t /\ ti_addr i = a /\ ti_link i = tm_t (add_timeslots t (-2)) /\ (ti_fcs i = hdr_fcs p :> bool) /\ match ti_sdu i with Some b => wf b /\ remaining b = sdu_of p /\ window b = sdu_of p /\ sdu_of p <> [] | None => sdu_of p = [] end.

(** Slots from [a] to [b], the clock going round. *)
Definition slots_from (a b : tdma_time) : Z := ((to_int b - to_int a) mod TIME_INT_WRAP)%Z.

Section Spec.
Context {P : Type}.
Definition req_bits (m : tma_req P) : list bool := window (tq_pdu m).
Definition ind_pdu (pdu : option bitbuf) : option bl_pdu := match pdu with Some b => bl_accept (remaining b) | None => None end.

(** ** Stop and wait: the link to one radio *)
(** The message outstanding: its name and bits, how often it was handed to the MAC, whether the MAC
    has since reported it sent or dropped, and the time of the tick end at which that was noticed. *)
Record outstanding := mk_os { os_id : N; os_bits : list bool; os_count : nat; os_reported : bool; os_done : option tdma_time }.
Record link := mk_link { lk_now : tdma_time; lk_waiting : list (N * list bool); lk_current : option outstanding; lk_owes : bool }.
Definition link_start : link := mk_link time_default [] None false.

Definition due (now : tdma_time) (o : outstanding) : bool :=
  match os_done o with Some d => (16 <=? slots_from d now)%Z | None => false end.
Definition noticed (now : tdma_time) (o : outstanding) : outstanding :=
  match os_done o with
  | None => if os_reported o then mk_os (os_id o) (os_bits o) (os_count o) true (Some now) else o
  | Some _ => o
  end.
Definition reported (id : N) (o : outstanding) : outstanding :=
  if (os_id o =? id)%N then mk_os (os_id o) (os_bits o) (os_count o) true (os_done o) else o.
(** An acknowledgement with this number settles the outstanding message. *)
Definition settles (nr : option bool) (o : outstanding) : bool :=
  match nr, numbered (os_bits o), os_done o with Some x, Some y, Some _ => Bool.eqb x y | _, _, _ => false end.

Definition bits_eqb (a b : list bool) : bool := if list_eq_dec bool_dec a b then true else false.
Definition reporter_is (m : tma_req P) (id : N) : bool := match tq_reporter m with Some x => (x =? id)%N | None => false end.

(** The automaton of the link to radio [ssi]; [None] is a violation. *)
Definition link_call (ssi : N) (k : link) (c : lcall P) : link :=
  match c with
  | LTickStart t => mk_link t (lk_waiting k) (lk_current k) false
  | LTickEnd => mk_link (lk_now k) (lk_waiting k) (option_map (noticed (lk_now k)) (lk_current k)) false
  | LUmacMark id _ => mk_link (lk_now k) (lk_waiting k) (option_map (reported id) (lk_current k)) false
  | LInd _ a pdu =>
      let nr := match ind_pdu pdu with Some p => acked_number p | None => None end in
      mk_link (lk_now k) (lk_waiting k) (lk_current k)
        ((ad_ssi a =? ssi)%N && match lk_current k with Some o => settles nr o | None => false end)
  | _ => k
  end.
Definition link_submit (k : link) (m : tma_req P) : option link :=
  match lk_current k with
  | None =>
      match lk_waiting k with
      | (id, b) :: w =>
          if reporter_is m id && bits_eqb (req_bits m) b
          then Some (mk_link (lk_now k) w (Some (mk_os id b 1 false None)) (lk_owes k)) else None
      | [] => None
      end
  | Some o =>
      if reporter_is m (os_id o) && bits_eqb (req_bits m) (os_bits o) && due (lk_now k) o && (os_count o <? 4)
      then Some (mk_link (lk_now k) (lk_waiting k) (Some (mk_os (os_id o) (os_bits o) (os_count o + 1) false None)) (lk_owes k)) else None
  end.
Definition link_step (ssi : N) (k : link) (i : litem P) : option link :=
  match i with
  | LCall c => if lk_owes k then None else Some (link_call ssi k c)
  | LDid (LQueued id m) =>
      if (ad_ssi (tq_addr m) =? ssi)%N then Some (mk_link (lk_now k) (lk_waiting k ++ [(id, req_bits m)]) (lk_current k) (lk_owes k)) else Some k
  | LDid (LSubmit m) =>
      if (ad_ssi (tq_addr m) =? ssi)%N && match numbered (req_bits m) with Some _ => true | None => false end
      then link_submit k m else Some k
  | LDid (LMark a id op) =>
      if (ad_ssi a =? ssi)%N then
        match op, lk_current k with
        | Reset, _ => Some k
        | MarkAcknowledged, Some o => if (os_id o =? id)%N && lk_owes k then Some (mk_link (lk_now k) (lk_waiting k) None false) else None
        | MarkLost, Some o => if (os_id o =? id)%N && (os_count o =? 4) && due (lk_now k) o then Some (mk_link (lk_now k) (lk_waiting k) None (lk_owes k)) else None
        | _, _ => None
        end
      else Some k
  | LDid (LToMle _) => Some k
  end.
Fixpoint link_run (ssi : N) (k : link) (l : list (litem P)) : option link :=
  match l with [] => Some k | i :: t => match link_step ssi k i with Some k => link_run ssi k t | None => None end end.

(** Nothing waits on a free link, and nothing is due. *)
Definition settled (k : link) : Prop :=
  (lk_current k = None -> lk_waiting k = []) /\ (forall o, lk_current k = Some o -> due (lk_now k) o = false).

(** ** What is assumed of the callers: times are valid, each request comes with a reporter of its
    own, not yet used, and the upper MAC marks only reporters it was given, as sent or dropped. *)
Definition item_named (i : litem P) (named : list N) : list N :=
  match i with
  | LCall (LDataReq id _ _) => id :: named
  | LCall (LUnitdataReq q) => match lq_reporter q with Some id => id :: named | None => named end
  | _ => named
  end.
Definition item_given (i : litem P) (given : list N) : list N :=
  match i with LDid (LSubmit m) => match tq_reporter m with Some id => id :: given | None => given end | _ => given end.
Definition time_ok (t : tdma_time) : Prop := is_valid t = true /\ (0 <= tm_h t < 65536)%Z.
Definition item_ok (named given : list N) (i : litem P) : Prop :=
  match i with
  | LCall (LTickStart t) => time_ok t
  | LCall (LDataReq id rep q) => ~ In id named /\ rep = tx_new /\ wf (lq_sdu q)
  | LCall (LUnitdataReq q) => wf (lq_sdu q) /\ match lq_reporter q with Some id => ~ In id named | None => True end
  | LCall (LUmacMark id op) => In id given /\ (op = MarkTransmitted \/ op = MarkDiscarded)
  | LCall (LInd t _ pdu) => time_ok t /\ match pdu with Some b => wf b | None => True end
  | _ => True
  end.
Fixpoint log_ok (named given : list N) (l : list (litem P)) : Prop :=
  match l with
  | [] => True
  | i :: t => item_ok named given i /\ log_ok (item_named i named) (item_given i given) t
  end.

(** Requests for acknowledged data to [ssi], and the messages made of them, in order. *)
Definition data_reqs (ssi : N) (l : list (litem P)) : list (N * tla_req P) :=
  flat_map (fun i => match i with LCall (LDataReq id _ q) => if (ad_ssi (lq_addr q) =? ssi)%N then [(id, q)] else [] | _ => [] end) l.
Definition queued (ssi : N) (l : list (litem P)) : list (N * tma_req P) :=
  flat_map (fun i => match i with LDid (LQueued id m) => if (ad_ssi (tq_addr m) =? ssi)%N then [(id, m)] else [] | _ => [] end) l.

(** Each request became one message, in order, with its data unchanged and the numbers taking turns. *)
Fixpoint numbered_in_turn (n : bool) (rs : list (N * tla_req P)) (ms : list (N * tma_req P)) : Prop :=
  match rs, ms with
  | [], [] => True
  | (id, q) :: rs, (id', m) :: ms =>
      id' = id /\ tq_addr m = lq_addr q /\ tq_time m = lq_time q /\ tq_chan m = lq_chan q /\ tq_info m = lq_info q /\
      (exists p, bl_parse (req_bits m) = Some p /\ send_number p = Some n /\ sdu_of p = remaining (lq_sdu q)) /\
      numbered_in_turn (negb n) rs ms
  | _, _ => False
  end.

(** The upper MAC does not report a message as dropped. *)
Definition not_dropped (c : lcall P) : Prop := match c with LUmacMark _ MarkDiscarded => False | _ => True end.

(** Calls that make the link layer panic, after a history with log [log]: a request that is no
    business of the basic link, a PDU it cannot stand, and a second report on one transmission. *)
Definition bad_call (log : list (litem P)) (c : lcall P) : Prop :=
  match c with
  | LDataReq _ _ q => lq_steal q = true \/ ad_type (lq_addr q) = SsiGssi
  | LInd _ _ None => True
  | LInd _ _ (Some b) => ind_panics (remaining b) = true
  | LUmacMark id _ => exists ssi k o, link_run ssi link_start log = Some k /\ lk_current k = Some o /\ os_id o = id /\ os_reported o = true
  | _ => False
  end.

(** What went to the MLE. *)
Definition deliveries (ev : list (lev P)) : list tla_ind := flat_map (fun e => match e with LToMle i => [i] | _ => [] end) ev.

(** Unacknowledged messages asked for, and handed to the MAC. *)
Definition unit_asked (l : list (litem P)) : list (tdma_time * tetra_addr * list bool * bool * option chan_req * option N * option P) :=
  flat_map (fun i => match i with
    | LCall (LUnitdataReq q) => [(lq_time q, lq_addr q, remaining (lq_sdu q), lq_steal q, lq_chan q, lq_reporter q, lq_info q)]
    | _ => [] end) l.
Definition unit_sent (l : list (litem P)) : list (tdma_time * tetra_addr * list bool * bool * option chan_req * option N * option P) :=
  flat_map (fun i => match i with
    | LDid (LSubmit m) =>
        match bl_parse (req_bits m) with
        | Some (UData false sdu) => [(tq_time m, tq_addr m, sdu, tq_steal m, tq_chan m, tq_reporter m, tq_info m)]
        | _ => []
        end
    | _ => [] end) l.

(** ** Acknowledgements: (radio, timeslot, number) *)
Definition slot_of (m : tma_req P) : Z :=
  match tq_chan m with
  | Some c => match cq_timeslots c with
              | [true; _; _; _] => 1 | [_; true; _; _] => 2 | [_; _; true; _] => 3 | [_; _; _; true] => 4 | _ => 0
              end
  | None => 1
  end.
Definition received (l : list (litem P)) : list (N * Z * bool) :=
  flat_map (fun i => match i with
    | LCall (LInd t a pdu) =>
        match ind_pdu pdu with
        | Some p => match send_number p with Some ns => [(ad_ssi a, tm_t t, ns)] | None => [] end
        | None => []
        end
    | _ => [] end) l.
(** Acknowledgements put into a data message as it is accepted, and stand-alone ones handed to the MAC. *)
Definition piggybacked (l : list (litem P)) : list (N * Z * bool) :=
  flat_map (fun i => match i with
    | LDid (LQueued _ m) =>
        match bl_parse (req_bits m) with
        | Some (AData _ nr _ _) => [(ad_ssi (tq_addr m), tm_t (tq_time m), nr)]
        | _ => []
        end
    | _ => [] end) l.
Definition standalone (l : list (litem P)) : list (N * Z * bool) :=
  flat_map (fun i => match i with
    | LDid (LSubmit m) =>
        match bl_parse (req_bits m) with
        | Some (Ack _ nr _) => [(ad_ssi (tq_addr m), slot_of m, nr)]
        | _ => []
        end
    | _ => [] end) l.
(** Acknowledgements of any kind actually handed to the MAC. *)
Definition acks_submitted (l : list (litem P)) : list (N * bool) :=
  flat_map (fun i => match i with
    | LDid (LSubmit m) =>
        match bl_parse (req_bits m) with
        | Some p => match acked_number p with Some nr => [(ad_ssi (tq_addr m), nr)] | None => [] end
        | _ => []
        end
    | _ => [] end) l.
End Spec.
