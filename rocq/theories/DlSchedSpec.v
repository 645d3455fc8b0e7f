(** What a radio hears on a downlink control channel, and what a downlink scheduler owes to those who
    give it messages.  Nothing here refers to how the scheduler works. *)
From Verif Require Import Base BitBuffer BitBufferProofs Codec MacFields MacPdus Layout MacSpec FragSpec TxReceipt TdmaTime DlSched.
Open Scope nat_scope.

(** * The receiver *)
(** The PDUs in a slot.  The length indication and the fill bit of a header only say how the message was cut up. *)
Inductive item :=
| IWhole (h : mac_resource) (d : list bool)   (** a complete message *)
| IStart (h : mac_resource) (d : list bool)   (** the first part of a message *)
| IMore (d : list bool)                       (** a further part *)
| IEnd (d : list bool).                       (** the last part *)
Definition header (p : mac_resource) : mac_resource :=
  mk_mres false (mr_pog p) (mr_encmode p) (mr_raf p) 0 (option_map on_air (mr_addr p)) (mr_el p) (mr_um p) (mr_pc p) (mr_sg p) (mr_ca p).

(** A slot is read PDU by PDU.  Fewer than 16 bits hold no PDU; a null PDU ends the slot; the first part and a
    further part of a message take the rest of the slot; the other PDUs say how many octets they take.
    [None]: the slot makes no sense.
    A strict receiver also insists that the padding a header announces is there (unless the PDU ends inside its own
    header), that lengths are not reserved values, and that a null PDU says its length, two octets. *)
Definition padded (fill : bool) (h ext : nat) (l : list bool) : bool := negb fill || (ext <? h) || existsb (fun x => x) (skipn h (firstn ext l)).
Definition length_whole (n : N) : bool := (1 <=? n)%N && (n <=? 57)%N.
Definition check {A} (strict fine : bool) (x : option A) : option A := if negb strict || fine then x else None.
Fixpoint items (strict : bool) (fuel : nat) (l : list bool) : option (list item) :=
  match fuel with
  | O => Some []
  | S n =>
      if length l <? 16 then Some []
      else match l with
      | false :: false :: _ =>
          match parse mr_read l with
          | Some (p, h) =>
              if mr_is_null p then check strict (mr_len p =? 2)%N (Some [])
              else if (mr_len p =? 63)%N then check strict (padded (mr_fill p) h (length l) l) (option_map (fun d => [IStart (header p) d]) (body (mr_fill p) h (length l) l))
              else check strict (length_whole (mr_len p) && padded (mr_fill p) h (N.to_nat (8 * mr_len p)) l)
                     match body (mr_fill p) h (N.to_nat (8 * mr_len p)) l with
                     | Some d => option_map (cons (IWhole (header p) d)) (items strict n (skipn (N.to_nat (8 * mr_len p)) l))
                     | None => None
                     end
          | None => None
          end
      | false :: true :: false :: _ =>
          match parse mfrag_read l with
          | Some (fill, h) => check strict (padded fill h (length l) l) (option_map (fun d => [IMore d]) (body fill h (length l) l))
          | None => None
          end
      | false :: true :: true :: _ =>
          match parse mend_read l with
          | Some (p, h) =>
              check strict ((1 <=? me_len p)%N && padded (me_fill p) h (N.to_nat (8 * me_len p)) l)
                match body (me_fill p) h (N.to_nat (8 * me_len p)) l with
                | Some d => option_map (cons (IEnd d)) (items strict n (skipn (N.to_nat (8 * me_len p)) l))
                | None => None
                end
          | None => None
          end
      | _ => None
      end
  end.
Definition slot_items (l : list bool) : option (list item) := items true (length l) l.
(** the same, leniently *)
Definition slot_items_lenient (l : list bool) : option (list item) := items false (length l) l.

(** Reassembly over the slots of a channel.  [Mixed]: a message begins while another one is incomplete, so
    the parts can no longer be told apart.  [Garbled]: a slot makes no sense, or a part continues nothing. *)
Inductive ear :=
| Clear (got : list (mac_resource * list bool)) (part : option (mac_resource * list bool))
| Mixed
| Garbled.
Definition hear_item (e : ear) (i : item) : ear :=
  match e, i with
  | Clear got part, IWhole h d => Clear (got ++ [(h, d)]) part
  | Clear got None, IStart h d => Clear got (Some (h, d))
  | Clear got (Some _), IStart _ _ => Mixed
  | Clear got (Some (h, a)), IMore d => Clear got (Some (h, a ++ d))
  | Clear got (Some (h, a)), IEnd d => Clear (got ++ [(h, a ++ d)]) None
  | Clear got None, (IMore _ | IEnd _) => Garbled
  | Mixed, _ => Mixed
  | Garbled, _ => Garbled
  end.
Definition hear_slot (e : ear) (l : list bool) : ear :=
  match e with
  | Clear _ _ => match slot_items l with Some is => fold_left hear_item is e | None => Garbled end
  | _ => e
  end.
Definition hear (slots : list (list bool)) : ear := fold_left hear_slot slots (Clear [] None).

(** * One slot *)
(** A message in the queue: whether its first part has been sent, its header, the bits still to be sent, the report. *)
Record entry := mk_en { en_going : bool; en_hdr : mac_resource; en_bits : list bool; en_rep : option tx_reporter }.
(** What a slot may do with a message: [served e is e' m] - the PDUs it puts in the slot, what stays queued, the reports given. *)
Definition sent (r : option tx_reporter) : list tx_reporter :=
  match r with Some t => [mk_tx (tx_expects_ack t) (tx_raw TxTransmitted)] | None => [] end.
Inductive served : entry -> list item -> list entry -> list tx_reporter -> Prop :=
| served_later e : served e [] [e] []
| served_whole h d r : served (mk_en false h d r) [IWhole (header h) d] [] (sent r)
| served_start h h' d d' r : header h' = header h -> served (mk_en false h (d ++ d') r) [IStart (header h) d] [mk_en true h' d' r] []
| served_more h d d' r : d <> [] -> served (mk_en true h (d ++ d') r) [IMore d] [mk_en true h d' r] []
| served_end h d r : served (mk_en true h d r) [IEnd d] [] (sent r).
Inductive served_all : list entry -> list item -> list entry -> list tx_reporter -> Prop :=
| served_none : served_all [] [] [] []
| served_next e es is i es' e' m m' : served e i e' m -> served_all es is es' m' -> served_all (e :: es) (i ++ is) (e' ++ es') (m ++ m').
(** How much work a message still is. *)
Definition load (e : entry) : nat := length (en_bits e) + (if en_going e then 1 else 2).
Definition loads (es : list entry) : nat := list_sum (map load es).
(** The queue as messages. *)
Definition entry_of (e : dl_elem) : list entry :=
  match e with
  | DlResource p sdu rep => [mk_en false p (remaining sdu) rep]
  | DlFrag f => [mk_en (BsFrag.fg_hdr f) (BsFrag.fg_res f) (remaining (BsFrag.fg_sdu f)) (BsFrag.fg_rep f)]
  | _ => []
  end.
Definition entries (q : list dl_elem) : list entry := flat_map entry_of q.

(** The whole of a queued message, if [part] is what the radio has heard of the message in progress. *)
Definition full (part : option (mac_resource * list bool)) (e : entry) : mac_resource * list bool :=
  (header (en_hdr e), (if en_going e then match part with Some (_, a) => a | None => [] end else []) ++ en_bits e).
(** A message is in progress at the radio just when it is in progress in the queue; there is at most one. *)
Definition in_step (part : option (mac_resource * list bool)) (es : list entry) : Prop :=
  match part, filter en_going es with None, [] => True | Some (h, _), [e] => header (en_hdr e) = h | _, _ => False end.

(** * Messages worth sending *)
(** A header that can be sent: valid once a length is filled in, and not that of a null PDU. *)
Definition sendable (p : mac_resource) : Prop :=
  mr_valid (mk_mres false (mr_pog p) (mr_encmode p) (mr_raf p) 1 (mr_addr p) (mr_el p) (mr_um p) (mr_pc p) (mr_sg p) (mr_ca p)) = true /\ mr_is_null p = false.
(** The slot of 268 bits ends with half an octet.  A message whose last octet would be cut off there is not
    delivered whole (see C14); this says that this message cannot be cut there. *)
Definition not_cut (hdr sdu : nat) : Prop := sdu = 0 \/ (hdr + sdu) mod 8 = 0 \/ 5 <= (hdr + sdu) mod 8.
Definition good_message (p : mac_resource) (sdu : bitbuf) (rep : option tx_reporter) : Prop :=
  sendable p /\ wf sdu /\ bpos sdu = bstart sdu /\ pending rep /\ not_cut (width (mr_layout p)) (length (remaining sdu)).
Definition short_hdr (a : tetra_addr) (g : option slotgrant) (ack : bool) : mac_resource := mk_mres false 0 0 ack 0 (Some a) None None None g None.

(** * What is asked for on a timeslot *)
(** A message: header, bits, report.  A grant or an acknowledgement (no grant) rides on the first waiting
    message to the same station that no slot has been offered to; otherwise it becomes a message of its own. *)
Record wish := mk_wish { w_hdr : mac_resource; w_bits : list bool; w_rep : option tx_reporter }.
Definition message (w : wish) : mac_resource * list bool := (header (w_hdr w), w_bits w).
Definition note : Type := tetra_addr * option slotgrant.
Definition to_ssi (ssi : N) (w : wish) : bool := match mr_addr (w_hdr w) with Some a => (ad_ssi a =? ssi)%N | None => false end.
Definition with_note (n : note) (p : mac_resource) : mac_resource :=
  match snd n with
  | Some g => mk_mres (mr_fill p) (mr_pog p) (mr_encmode p) (mr_raf p) (mr_len p) (mr_addr p) (mr_el p) (mr_um p) (mr_pc p) (Some g) (mr_ca p)
  | None => mk_mres (mr_fill p) (mr_pog p) (mr_encmode p) true (mr_len p) (mr_addr p) (mr_el p) (mr_um p) (mr_pc p) (mr_sg p) (mr_ca p)
  end.
Definition own (n : note) : wish := mk_wish (short_hdr (fst n) (snd n) (match snd n with Some _ => false | None => true end)) [] None.
Fixpoint attach (n : note) (l : list wish) : list wish :=
  match l with
  | [] => [own n]
  | w :: t => if to_ssi (ad_ssi (fst n)) w then mk_wish (with_note n (w_hdr w)) (w_bits w) (w_rep w) :: t else w :: attach n t
  end.
(** [dk_firm]: messages that slots have been offered to, in order; [dk_fresh]: the others, in order; [dk_notes]. *)
Record desk := mk_desk { dk_firm : list wish; dk_fresh : list wish; dk_notes : list note }.
Definition desk_empty : desk := mk_desk [] [] [].
Definition for_ts (k : nat) (t : tdma_time) : bool := (tm_t t =? Z.of_nat k)%Z.
Definition is_traffic (s : dl_slot) : bool := match bk_chan (sl_blk1 s) with CTchS | CStch => true | _ => false end.
Definition desk_step (k : nat) (d : desk) (x : dl_event * option dl_slot * list tx_reporter) : desk :=
  match fst (fst x) with
  | DvResource ts p sdu rep => if ts =? k then mk_desk (dk_firm d) (dk_fresh d ++ [mk_wish p (remaining sdu) rep]) (dk_notes d) else d
  | DvGrant ts a g => if ts =? k then mk_desk (dk_firm d) (dk_fresh d) (dk_notes d ++ [(a, Some g)]) else d
  | DvAck ts a => if ts =? k then mk_desk (dk_firm d) (dk_fresh d) (dk_notes d ++ [(a, None)]) else d
  | _ =>
      match snd (fst x) with
      | Some s =>
          if for_ts k (sl_ts s) && negb (is_traffic s) then
            let fresh := fold_left (fun l n => attach n l) (dk_notes d) (dk_fresh d) in
            if (tm_f (sl_ts s) =? 18)%Z then mk_desk (dk_firm d) fresh []
            else mk_desk (dk_firm d ++ fresh) [] []
          else d
      | None => d
      end
  end.
Definition asked (k : nat) (log : list (dl_event * option dl_slot * list tx_reporter)) : desk := fold_left (desk_step k) log desk_empty.
(** A queue element that stands for an untouched message; the notes in the queue. *)
Definition waits_for (e : entry) (w : wish) : Prop :=
  en_going e = false /\ header (en_hdr e) = header (w_hdr w) /\ en_bits e = w_bits w /\ en_rep e = w_rep w.
Definition notes_of (e : dl_elem) : list note := match e with DlGrant a g => [(a, Some g)] | DlAck a => [(a, None)] | _ => [] end.
(** The control-channel slots of a timeslot, as bits. *)
Definition air_slot (k : nat) (x : dl_event * option dl_slot * list tx_reporter) : list (list bool) :=
  match snd (fst x) with
  | Some s => if for_ts k (sl_ts s) then match bk_chan (sl_blk1 s) with CSchF | CSchHd => [window (bk_buf (sl_blk1 s))] | _ => [] end else []
  | None => []
  end.
Definition air (k : nat) (log : list (dl_event * option dl_slot * list tx_reporter)) : list (list bool) := flat_map (air_slot k) log.
(** Events a user of timeslot [k] gives: good messages, valid grants and addresses; no stolen half slots and no
    end of a hang time on that timeslot (which throws the queue away), no restart. *)
Definition fair (k : nat) (e : dl_event) : Prop :=
  match e with
  | DvStart _ => False
  | DvResource ts p sdu rep => ts = k -> good_message p sdu rep
  | DvGrant ts a g => ts = k -> sendable (short_hdr a (Some g) false)
  | DvAck ts a => ts = k -> sendable (short_hdr a None true)
  | DvSteal ts _ _ => ts <> k
  | DvHang ts active => active = true \/ ts <> k
  | _ => True
  end.
