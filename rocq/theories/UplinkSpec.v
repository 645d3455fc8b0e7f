(** What arrives from the radios, over whole histories of the upper MAC: every act of every PDU received, and the SDUs it
    makes the base station hand up. *)
From Verif Require Import Base BitBuffer BitBufferProofs MacFields TdmaTime TdmaTimeProofs UlSched DlSched UmacPrecomps TxReceipt UmacBs UmacSched UlBlockSpec.
Open Scope N_scope.

(** An act of a received PDU (UlBlockSpec.v), the block it was in, the state it met and what was handed up for it. *)
Record note := mk_note { nt_ind : tmv_ind; nt_act : ul_act; nt_before : umac; nt_out : list um_out }.
Definition nt_ts (n : note) : Z := tm_t (tv_time (nt_ind n)).
(** The radio the slot was granted to (C16). *)
Definition nt_owner (n : note) : option N :=
  match ul_get_slot_owner (tv_time (nt_ind n)) (tv_blk (nt_ind n)) (ds_ul (um_sch (nt_before n))) with Ok o => o | _ => None end.

(** The acts of a block are done one after the other. *)
Inductive chain (i : tmv_ind) : umac -> list note -> umac -> Prop :=
| ch_nil u : chain i u [] u
| ch_cons n ns u' u'' more : nt_ind n = i -> does i (nt_act n) (nt_before n) (Ok (u', nt_out n, more)) -> chain i u' ns u'' ->
    chain i (nt_before n) (n :: ns) u''.
(** All acts of all PDUs of the block, from the left, as long as 16 bits or more are left; the last part of an SDU
    nothing is known of makes the rest of the block be ignored. *)
Inductive covers (c : ul_chan) : list bool -> list note -> Prop :=
| cv_end l n ns : first_pdu c l = Acts (map nt_act ns) n -> (n = None \/ exists k, n = Some k /\ (length (skipn k l) < 16)%nat) -> covers c l ns
| cv_next l n ns ms : first_pdu c l = Acts (map nt_act ns) (Some n) -> (16 <= length (skipn n l) < length l)%nat -> covers c (skipn n l) ms ->
    covers c l (ns ++ ms)
| cv_stray l n ns x req d more : first_pdu c l = Acts (map nt_act (ns ++ [x]) ++ more) n -> nt_act x = ALast req d -> nt_out x = [] -> covers c l (ns ++ [x]).

(** A history from the start, with its log and all acts, oldest first. *)
Inductive lived (c : cell_cfg) : list (um_event * list um_out * list tx_reporter) -> list note -> umac -> Prop :=
| lv_start connected u0 cn t u o m : umac_new c connected = Ok u0 -> vtime t -> um_step c (UeTick cn t) u0 = Ok (u, o, m) ->
    lived c [(UeTick cn t, o, m)] [] u
| lv_step log ns u e ms u' o m : lived c log ns u -> ev_fine e -> um_step c e u = Ok (u', o, m) ->
    match e with
    | UeBlock i pdu => on_channel i = true /\ chain i u ms u' /\ o = flat_map nt_out ms /\ covers (tv_chan i) (window pdu) ms
    | _ => ms = []
    end -> lived c (log ++ [(e, o, m)]) (ns ++ ms) u'.

(** An act about the message radio [ssi] is sending in pieces on timeslot [k]: a first part with its address, or another
    part in a slot that was granted to it. *)
Definition about (k : Z) (ssi : N) (n : note) : bool :=
  (nt_ts n =? k)%Z &&
  match nt_act n with
  | AFirst a _ => ad_ssi a =? ssi
  | AMore _ | ALast _ _ => match nt_owner n with Some s => s =? ssi | None => false end
  | _ => false
  end.
(** [collecting k ssi ns a bits]: the last first part of radio [ssi] on timeslot [k] had the address [a]; its bits and those
    of the parts that followed are [bits]; no last part has come, and no part made the message longer than 4096 bits.
    Whatever else was received meanwhile makes no difference. *)
Inductive collecting (k : Z) (ssi : N) : list note -> tetra_addr -> list bool -> Prop :=
| cl_first ns n a d : nt_ts n = k -> nt_act n = AFirst a d -> ad_ssi a = ssi -> collecting k ssi (ns ++ [n]) a d
| cl_more ns n a bits d : collecting k ssi ns a bits -> nt_ts n = k -> nt_act n = AMore d -> nt_owner n = Some ssi ->
    N.of_nat (length bits + length d) <= 4096 -> collecting k ssi (ns ++ [n]) a (bits ++ d)
| cl_other ns n a bits : collecting k ssi ns a bits -> about k ssi n = false -> collecting k ssi (ns ++ [n]) a bits.

(** What is handed up for an act, in terms of the acts before it. *)
Definition explained (before : list note) (n : note) : Prop :=
  let t := tv_time (nt_ind n) in let scr := tv_scr (nt_ind n) in
  match nt_act n with
  | ASdu a d => exists b, wf b /\ bpos b = bstart b /\ window b = d /\ nt_out n = [OutSdu t b a scr]
  | ALast _ d =>
      match nt_owner n with
      | None => nt_out n = []
      | Some ssi =>
          (exists a bits b, collecting (nt_ts n) ssi before a bits /\ N.of_nat (length bits + length d) <= 4096 /\
             remaining b = bits ++ d /\ nt_out n = [OutSdu t b a scr]) \/
          ((forall a bits, collecting (nt_ts n) ssi before a bits -> 4096 < N.of_nat (length bits + length d)) /\
           (nt_out n = [] \/ exists b, remaining b = [] /\ nt_out n = [OutSdu t b (mk_addr 0 false SsiUnknown) scr]))
      end
  | AStolen => nt_out n = [OutStolen]
  | _ => nt_out n = []
  end.

(** Where an SDU handed up at time [t] for address [a] came from: a PDU with all of it, or the last of the parts it was sent
    in; the third case is the empty SDU from nobody a message above 4096 bits turns into. *)
Definition origin (before : list note) (n : note) (t : tdma_time) (b : bitbuf) (a : tetra_addr) : Prop :=
  t = tv_time (nt_ind n) /\
  (nt_act n = ASdu a (remaining b) \/
   (exists ssi bits req d, nt_act n = ALast req d /\ nt_owner n = Some ssi /\ collecting (tm_t t) ssi before a bits /\ remaining b = bits ++ d) \/
   (exists req d, nt_act n = ALast req d /\ remaining b = [] /\ a = mk_addr 0 false SsiUnknown)).
(** no last part of an SDU *)
Definition no_last (x : ul_act) : bool := match x with ALast _ _ => false | _ => true end.
(** acts that have nothing to do with what radio [ssi] is sending, whoever owns the slot *)
Definition apart (ssi : N) (x : ul_act) : bool := match x with AFirst a _ => negb (ad_ssi a =? ssi) | AMore _ | ALast _ _ => false | _ => true end.
(** An event that has nothing to do with what radio [ssi] is sending on timeslot [k]: no block; a block on another timeslot; one
    in which nobody continues a message and the radio begins none; the continuation of somebody else's message. *)
Definition elsewhere (k : Z) (ssi : N) (u : umac) (e : um_event) : Prop :=
  match e with
  | UeBlock i pdu =>
      tm_t (tv_time i) <> k \/
      (exists plan, block_sent (tv_chan i) (window pdu) plan /\ forallb (apart ssi) plan = true) \/
      (exists d o, block_sent (tv_chan i) (window pdu) [AMore d] /\ ul_get_slot_owner (tv_time i) (tv_blk i) (ds_ul (um_sch u)) = Ok o /\ o <> Some ssi)
  | _ => True
  end.
