(** Model of crates/tetra-entities/src/mle/mle_bs.rs and mle/components/{mle_router,broadcast}.rs: the mobile link
    entity, which sorts received messages by protocol discriminator and puts the discriminator in front of sent ones.
    Simplifications: log output is dropped; the connection table of the router is never written
    (mle_router.rs:29-38), so of it only the next handle is kept; of the primitives to the link layer the fields
    that are constants here are left out ([lq_info] is [None]). *)
From Verif Require Import Base TdmaTime BitBuffer Codec TypedFields MacFields Llc.
From Verif Require CallControl Mobility.
Open Scope N_scope.
Open Scope codec_scope.

(** crates/tetra-pdus/src/mle/enums/mle_protocol_discriminator.rs:5-14 *)
Definition PdMm : N := 1.
Definition PdCmce : N := 2.
Definition PdSndcp : N := 4.
Definition PdMle : N := 5.
Definition PdTme : N := 6.

(** crates/tetra-pdus/src/mle/pdus/d_nwrk_broadcast.rs:17-28; [nb_neighbours] is the conditional element *)
Record d_nwrk_broadcast := mk_nwrk { nb_reselect : N; nb_load : N; nb_time : option N; nb_cells : option N; nb_neighbours : option N }.
(** d_nwrk_broadcast.rs:34-66; neighbour cell information is not implemented (51) *)
Definition nwrk_read : reader d_nwrk_broadcast :=
  ty <~ rfield 3 ;; rguard (ty =? 2) EInvalidPduType ;~
  r <~ rfield 16 ;; l <~ rfield 2 ;; obit <~ read_obit ;;
  t <~ parse_type2_generic obit 48 ;; n <~ parse_type2_generic obit 3 ;;
  if obit && match n with Some k => 0 <? k | None => false end then rpanic
  else rret (mk_nwrk r l t n None).
(** d_nwrk_broadcast.rs:69-96 *)
Definition nwrk_write (p : d_nwrk_broadcast) : wr :=
  wfield 2 3 >> wfield (nb_reselect p) 16 >> wfield (nb_load p) 2 >>
  (let obit := is_some (nb_time p) || is_some (nb_cells p) in
   write_obit (if obit then 1 else 0) >>
   (if obit then
      write_type2_generic obit (nb_time p) 48 >> write_type2_generic obit (nb_cells p) 3 >>
      match nb_neighbours p with Some _ => wpanic | None => wret end
    else wret)).

(** mle_bs.rs:16-20; [mle_router.rs:15-26]: handles count from 1.  [ml_zone]: a time zone is configured
    (broadcast.rs:20-31); [ml_last]: the last broadcast type is NetworkTime *)
Record mle := mk_mle { ml_next : N; ml_zone : bool; ml_last : bool }.
Definition mle_new (zone : bool) : mle := mk_mle 1 zone false.
(** mle_router.rs:28-42; the counter is a [u32] *)
Definition create_handle (s : mle) : res (N * mle) :=
  assert (ml_next s <? 4294967295) ;;;
  Ok (ml_next s, mk_mle (ml_next s + 1) (ml_zone s) (ml_last s)).

(** Messages pushed to the queue. *)
Inductive mle_out :=
| UpMm (i : Mobility.mm_ind)
| UpCmce (i : CallControl.mle_ind)
| UpSndcp (t : tdma_time) (sdu : bitbuf) (a : tetra_addr)       (* [LtpdMleUnitdataInd], addressed to CMCE (164-181) *)
| DnData (q : tla_req unit)
| DnUnit (q : tla_req unit).

(** mle_bs.rs:38-91: the SDU was taken out of the primitive (116), so there never is one (49-52) *)
Definition rx_tla_mle_pdu (sdu : option bitbuf) (s : mle) : res (list mle_out * mle) :=
  match sdu with
  | None => Ok ([], s)
  | Some b => _ <- peek_bits b 3 ;; Ok ([], s)
  end.
(** mle_bs.rs:111-190.  The endpoint of the upper MAC is always 0 (umac_bs.rs:557, 713, 877, 994). *)
Definition rx_tla_data_ind_bl (i : tla_ind) (s : mle) : res (list mle_out * mle) :=
  sdu <- unwrap (ti_sdu i) ;;
  p <- get_pos sdu ;;
  assert (p =? 0)%nat ;;;
  '(bits, sdu) <- read_bits_opt sdu 3 ;;
  match bits with
  | None => Ok ([], s)
  | Some d =>
      if d =? PdMm then
        '(h, s) <- create_handle s ;;
        Ok ([UpMm (Mobility.mk_mm_ind (ti_time i) sdu (ti_addr i) h)], s)
      else if d =? PdCmce then
        '(h, s) <- create_handle s ;;
        Ok ([UpCmce (CallControl.mk_mle_ind (ti_time i) sdu (ti_addr i) h 0 (Z.to_N (ti_link i)))], s)
      else if d =? PdSndcp then Ok ([UpSndcp (ti_time i) sdu (ti_addr i)], s)
      else if d =? PdMle then rx_tla_mle_pdu None s
      else Ok ([], s)
  end.
(** mle_bs.rs:94-109 *)
Definition rx_tla_prim (i : tla_ind) (s : mle) : res (list mle_out * mle) :=
  if ti_unit i then Panic else rx_tla_data_ind_bl i s.

(** The head of mle_bs.rs:267-275, 334-342: discriminator and SDU.  [get_len] is the length from the start; [copy_bits]
    begins at the position of the SDU *)
Definition mle_pdu (disc : N) (sdu : bitbuf) : res bitbuf :=
  n <- get_len sdu ;;
  b <- wfield disc 3 (bb_new (3 + n)) ;;
  '(b, _) <- copy_bits n sdu b ;;
  seek 0 b.
(** mle_bs.rs:261-307; [unack]: the unacknowledged service is asked for, which is not implemented (277) *)
Definition rx_lmm_mle_unitdata_req (t : tdma_time) (sdu : bitbuf) (a : tetra_addr) (unack : bool) (rep : option N) (s : mle) : res (list mle_out * mle) :=
  b <- mle_pdu PdMm sdu ;;
  assert (negb unack) ;;;
  Ok ([DnData (mk_tlareq t b a false false None rep None)], s).
(** mle_bs.rs:328-402 *)
Definition rx_lcmc_mle_unitdata_req (t : tdma_time) (sdu : bitbuf) (a : tetra_addr) (unack steal : bool) (chan : option chan_req) (rep : option N) (s : mle) : res (list mle_out * mle) :=
  b <- mle_pdu PdCmce sdu ;;
  let q := mk_tlareq t b a steal false chan rep None in
  Ok ([if unack then DnUnit q else DnData q], s).

(** broadcast.rs:47-60 *)
Definition next_broadcast (s : mle) : bool := if ml_last s then true else ml_zone s.
(** broadcast.rs:62-128; [now] is what [encode_tetra_network_time] returns (C51).  The address is the broadcast
    GSSI. *)
Definition send_d_nwrk_broadcast (now : N) (t : tdma_time) (s : mle) : res (list mle_out * mle) :=
  assert (ml_zone s) ;;;
  match nwrk_write (mk_nwrk 0 0 (Some now) (Some 0) None) (bb_new 128) with
  | Panic => Panic
  | Err _ => Ok ([], s)
  | Ok b =>
      n <- get_pos b ;;
      b <- seek 0 b ;;
      p <- wfield PdMle 3 (bb_new (3 + n)) ;;
      '(p, _) <- copy_bits n b p ;;
      p <- seek 0 p ;;
      Ok ([DnUnit (mk_tlareq t p (mk_addr 16777215 false SsiGssi) false false None None None)], s)
  end.
(** mle_bs.rs:22-26, 421-428; broadcast.rs:33-45 *)
Definition MLE_BROADCAST_MULTIFRAME : Z := 20.
Definition MLE_BROADCAST_FRAME : Z := 1.
Definition mle_tick_start (now : N) (t : tdma_time) (s : mle) : res (list mle_out * mle) :=
  if ((tm_m t =? MLE_BROADCAST_MULTIFRAME) && (tm_f t =? MLE_BROADCAST_FRAME) && (tm_t t =? 1))%Z then
    let ty := next_broadcast s in
    let s := mk_mle (ml_next s) (ml_zone s) ty in
    if ty then send_d_nwrk_broadcast now t s else Ok ([], s)
  else Ok ([], s).

(** A history of the entity: messages received (mle_bs.rs:94-109), requests of MM and CMCE, and ticks. *)
Inductive mle_event :=
| MeInd (i : tla_ind)
| MeMm (t : tdma_time) (sdu : bitbuf) (a : tetra_addr) (unack : bool) (rep : option N)
| MeCmce (t : tdma_time) (sdu : bitbuf) (a : tetra_addr) (unack steal : bool) (chan : option chan_req) (rep : option N)
| MeTick (now : N) (t : tdma_time).
Definition mle_step (e : mle_event) (s : mle) : res (list mle_out * mle) :=
  match e with
  | MeInd i => rx_tla_prim i s
  | MeMm t sdu a unack rep => rx_lmm_mle_unitdata_req t sdu a unack rep s
  | MeCmce t sdu a unack steal chan rep => rx_lcmc_mle_unitdata_req t sdu a unack steal chan rep s
  | MeTick now t => mle_tick_start now t s
  end.
Fixpoint mle_run (evs : list mle_event) (s : mle) : res (list mle_out * mle) :=
  match evs with
  | [] => Ok ([], s)
  | e :: r => '(x, s) <- mle_step e s ;; '(y, s) <- mle_run r s ;; Ok (x ++ y, s)
  end.
