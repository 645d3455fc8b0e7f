(** What a mobile station is to make of the bursts of a base station it listens to. *)
From Verif Require Import Base BitBuffer BitBufferProofs TdmaTime TdmaTimeProofs UlSched ErrorControl LmacSpec Slotter SlotterSpec DlSched UmacPrecomps UmacBs SlotSpec LmacBs BsMac AirSpec UmacMs LmacMs.
From Verif Require CallControl Scrambler.
Open Scope nat_scope.

(** * The blocks of a burst, EN 300 392-2 clause 9.4.4.2 *)
(** a block with the bits [air], of which at most one is wrong *)
Definition block_of (ty : phy_type) (num : blocknum) (air : list bool) (p : phy_blk) : Prop :=
  pb_type p = ty /\ pb_num p = num /\ exists r, near air r /\ fresh_with (pb_block p) r.
(** The demodulator knows from the training sequence whether the burst has one block, two, or the synchronisation; the
    broadcast block comes first. *)
Definition demodulated (x : kind) (w : list bool) (l : list phy_blk) : Prop :=
  match x with
  | KSync => exists p0 p1 p2, l = [p0; p1; p2] /\ block_of TyBBK BlockUndef (part w 252 30) p0 /\
      block_of TySB1 Block1 (part w 94 120) p1 /\ block_of TySB2 Block2 (part w 282 216) p2
  | KHalf | KStolen => exists p0 p1 p2, l = [p0; p1; p2] /\ block_of TyBBK BlockUndef (part w 230 14 ++ part w 266 16) p0 /\
      block_of TyNDB Block1 (part w 14 216) p1 /\ block_of TyNDB Block2 (part w 282 216) p2
  | KSignalling | KTraffic => exists p0 p1, l = [p0; p1] /\ block_of TyBBK BlockUndef (part w 230 14 ++ part w 266 16) p0 /\
      block_of TyNDB BothBlocks (part w 14 216 ++ part w 282 216) p1
  end.

(** * What the upper MAC is to get *)
(** the message [msg] of channel [c], in the block [num] of timeslot [t] *)
Definition brings (t : tdma_time) (c : lchan) (num : blocknum) (code : N) (msg : list bool) (e : ms_event) : Prop :=
  exists b, fresh_with b msg /\ e = MeBlock (mk_msi t c num code) b.
(** Of a burst: the access assignment, then all that is not speech.  A half slot of system information is on the broadcast
    channel in the timeslots that always have one, and otherwise on the signalling channel. *)
Definition slot_brings (code : N) (t : tdma_time) (x : kind) (msg1 msg2 acc : list bool) (evs : list ms_event) : Prop :=
  exists e0 r, evs = e0 :: r /\ brings t Aach BlockUndef code acc e0 /\
  match x with
  | KSync => exists e1 e2, r = [e1; e2] /\ brings t Bsch Block1 Scrambler.SCRAMB_INIT msg1 e1 /\ brings t (if is_mandatory_bnch t then Bnch else SchHd) Block2 code msg2 e2
  | KHalf => exists e1 e2, r = [e1; e2] /\ brings t SchHd Block1 code msg1 e1 /\ brings t SchHd Block2 code msg2 e2
  | KSignalling => exists e1, r = [e1] /\ brings t SchF BothBlocks code msg1 e1
  | KTraffic | KStolen => r = []
  end.
Definition speech (x : kind) : bool := match x with KTraffic | KStolen => true | _ => false end.
(** What call control has said allows a radio to tell speech from signalling by the access assignment: no circuit in timeslot
    1, where the access assignment never says traffic; no half slot stolen in hang time, when it says signalling. *)
Definition told_apart (t : tdma_time) (v : ts_view) (x : kind) : Prop := (tm_t t = 1%Z -> vw_dl v = None) /\ (vw_hang v = true -> x <> KStolen).
(** no call is heard on timeslot 1, the main control channel *)
Definition first_free (e : bs_event) : Prop := match e with BeControl (CallControl.CtlOpen d ts _) => ts = 1 -> downwards d = false | _ => True end.
(** the time of the first tick *)
Definition starts_at (log : bs_log) (t : tdma_time) : Prop := exists cn xs ws r, log = (BeTick cn t, xs, ws) :: r.

(** * Listening to a base station *)
(** the bursts of a history, one after each tick, and the same ticks *)
Inductive overhears : bs_log -> list mob_event -> Prop :=
| overhears_nothing : overhears [] []
| overhears_burst cn t xs k x w blks log evs : slots_of xs = [k] -> kind_of k = Some x -> demodulated x w blks -> overhears log evs ->
    overhears ((BeTick cn t, xs, [b2b w]) :: log) (MvTick t :: MvSlot blks :: evs)
| overhears_silence e xs log evs : (match e with BeTick _ _ => False | _ => True end) -> overhears log evs -> overhears ((e, xs, []) :: log) evs.
(** what the upper MAC is to get of them *)
Inductive listened (code : N) : bs_log -> list ms_event -> Prop :=
| listened_nothing : listened code [] []
| listened_burst cn t xs k x ws log evs evs' : slots_of xs = [k] -> kind_of k = Some x ->
    slot_brings code (add_timeslots t 1) x (window (bk_buf (sl_blk1 k))) (second_of k) (window (bk_buf (sl_bbk k))) evs -> listened code log evs' ->
    listened code ((BeTick cn t, xs, ws) :: log) (evs ++ evs')
| listened_silence e xs ws log evs : (match e with BeTick _ _ => False | _ => True end) -> listened code log evs -> listened code ((e, xs, ws) :: log) evs.
