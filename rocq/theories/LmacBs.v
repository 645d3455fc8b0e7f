(** Model of crates/tetra-entities/src/lmac/lmac_bs.rs: the lower MAC of the base station.
    Simplifications: log output is dropped; of the physical channel of an uplink timeslot only whether it is a
    traffic channel is kept (nothing else is looked at); messages of kinds that make the entity panic whatever
    its state (307-309, 388-410, 433-443) are not representable. *)
From Verif Require Import Base BitBuffer TdmaTime UmacCircuits UlSched Scrambler ErrorControl Slotter DlSched UmacPrecomps UmacBs.
Open Scope nat_scope.

(** lmac_bs.rs:36-59 (the state), 61-88 (a new entity) *)
Record lmac := mk_lmac { lm_code : N; lm_time : tdma_time; lm_tp : list bool; lm_stolen : bool }.
Definition lmac_new (c : cell_cfg) : lmac :=
  mk_lmac (scramb_get_init (cf_mcc c) (cf_mnc c) (cf_colour c)) time_default [false; false; false; false] false.
(** lmac_bs.rs:447-450 *)
Definition lm_tick (ts : tdma_time) (l : lmac) : lmac := mk_lmac (lm_code l) ts (lm_tp l) false.
(** lmac_bs.rs:295-302 *)
Definition lm_configure (stolen : bool) (l : lmac) : lmac := mk_lmac (lm_code l) (lm_time l) (lm_tp l) stolen.

(** * Reception *)
(** lmac_bs.rs:121-178; a downlink burst panics *)
Definition determine_logical_channel_ul (i : tp_ind) (traffic stolen : bool) : res lchan :=
  match tp_i_burst i with
  | BurstCUB => assert (match tp_i_train i with TrainExtended => true | _ => false end) ;;; Ok SchHu
  | BurstNUB =>
      match tp_i_train i with
      | TrainNormal1 => assert (match tp_i_num i with BkBoth => true | _ => false end) ;;; Ok (if traffic then TchS else SchF)
      | TrainNormal2 =>
          match tp_i_num i with
          | Bk1 => Ok Stch
          | Bk2 => Ok (if negb traffic || stolen then Stch else TchS)
          | BkBoth => Panic
          end
      | _ => Panic
      end
  | _ => Panic
  end.
(** What the lower MAC sends to the upper MAC: a signalling block (240-259), a block of speech (204-213). *)
Inductive lm_out := LoBlock (i : tmv_ind) (pdu : bitbuf) | LoVoice (t : tdma_time) (ts : nat) (data : list N).
Definition num_of (n : blk_num) : blocknum := match n with BkBoth => BothBlocks | Bk1 => Block1 | Bk2 => Block2 end.
Definition ul_chan_of (c : lchan) : ul_chan := match c with SchF => UcSchF | Stch => UcStch | SchHu => UcSchHu | _ => UcOther end.
(** lmac_bs.rs:180-217 *)
Definition rx_blk_traffic (i : tp_ind) (c : lchan) (l : lmac) : res (list lm_out) :=
  match c, tp_i_num i with
  | TchS, BkBoth =>
      ' (o, _) <- decode_tp c (tp_i_block i) (lm_code l) ;;
      match o with
      | None => Ok []
      | Some b => n <- get_len b ;; b <- seek 0 b ;; ' (data, _) <- to_bitarr n b ;; Ok [LoVoice (tp_i_time i) (ts_of (tp_i_time i)) data]
      end
  | _, _ => Ok []
  end.
(** lmac_bs.rs:219-260; the blocks of the uplink are not SB1 *)
Definition rx_blk_control (i : tp_ind) (c : lchan) (l : lmac) : res (list lm_out) :=
  assert (is_control_channel c) ;;;
  ' (o, crc) <- decode_cp c (tp_i_block i) false (Some (lm_code l)) ;;
  b <- unwrap o ;;
  Ok (if (crc : bool) then [LoBlock (mk_tmv (tp_i_time i) (ul_chan_of c) (num_of (tp_i_num i)) (lm_code l)) b] else []).
(** lmac_bs.rs:262-293 *)
Definition lm_rx (i : tp_ind) (l : lmac) : res (list lm_out) :=
  tp <- ts_get (lm_tp l) (ts_of (tp_i_time i)) ;;
  c <- determine_logical_channel_ul i tp (lm_stolen l) ;;
  assert (match tp_i_num i with Bk1 => negb (lm_stolen l) | _ => true end) ;;;
  assert (tp || negb (lm_stolen l)) ;;;
  match c with
  | Clch => Ok []
  | TchS | Tch24 | Tch48 | Tch72 => rx_blk_traffic i c l
  | SchF | SchHu | Stch => rx_blk_control i c l
  | _ => Panic
  end.

(** * Transmission *)
Definition chan_of (c : dl_chan) : lchan :=
  match c with CSchF => SchF | CSchHd => SchHd | CBsch => Bsch | CBnch => Bnch | CTchS => TchS | CStch => Stch | CAach => Aach end.
(** logical_chans.rs:38-43 [is_traffic] *)
Definition is_traffic (c : lchan) : bool := match c with TchS | Tch24 | Tch48 | Tch72 => true | _ => false end.
(** lmac_bs.rs:363-374 *)
Definition encode_blk (k : dl_blk) (num : N) : res bitbuf :=
  let c := chan_of (bk_chan k) in
  if is_traffic c then encode_tp c (bk_buf k) (bk_scr k) num else encode_cp c (bk_buf k) (bk_scr k).
(** lmac_bs.rs:305-385: the new state and the request to the physical layer.  The access assignment and the first
    block are always present in a [dl_slot]. *)
Definition lm_slot (k : dl_slot) (l : lmac) : res (lmac * tp_req) :=
  _ <- ts_get (lm_tp l) (ts_of (sl_ts k)) ;;
  let l := mk_lmac (lm_code l) (lm_time l) (ts_set (lm_tp l) (ts_of (sl_ts k)) (sl_ul_tp k)) (lm_stolen l) in
  let two := match sl_blk2 k with Some _ => true | None => false end in
  ' (burst, train) <-
    (match chan_of (bk_chan (sl_blk1 k)) with
     | Bsch => assert two ;;; Ok (BurstSDB, TrainSync)
     | SchF | TchS | Tch24 | Tch48 | Tch72 => assert (negb two) ;;; Ok (BurstNDB, TrainNormal1)
     | SchHd | Stch | Bnch => assert two ;;; Ok (BurstNDB, TrainNormal2)
     | _ => Panic
     end) ;;
  bbk <- encode_aach (bk_buf (sl_bbk k)) (bk_scr (sl_bbk k)) ;;
  b1 <- encode_blk (sl_blk1 k) 1 ;;
  b2 <- (match sl_blk2 k with Some b => e <- encode_blk b 2 ;; Ok (Some e) | None => Ok None end) ;;
  Ok (l, mk_tpreq burst train (Some bbk) (Some b1) b2).
