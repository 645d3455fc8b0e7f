(** Model of crates/tetra-entities/src/umac/umac_ms.rs and subcomp/ms_defrag.rs: the upper MAC of a mobile station.
    Simplifications: log output is dropped; the configuration (never read) and the constant fields of primitives are left
    out; messages of kinds that make the entity panic whatever its state (61-65, 705-713, 765-768, 797-801) are not
    representable. *)
From Verif Require Import Base BitBuffer Codec TypedFields MacFields MacPdus MacBroadcast FillBits Defrag TdmaTime UlSched Scrambler UmacBs.
From Verif Require Import ErrorControl.
Open Scope N_scope.

(** * Reassembly *)
(** ms_defrag.rs:11-20: one buffer per timeslot *)
Definition ms_defrag := list df_buf.
Definition msd_new : ms_defrag := [df_new; df_new; df_new; df_new].
Definition msd_get (d : ms_defrag) (i : nat) : res df_buf := unwrap (nth_error d i).
(** ms_defrag.rs:37-66; a buffer that is not inactive is reset, which gives the same value as a new one; also returns
    the consumed source buffer *)
Definition msd_first (src : bitbuf) (t : tdma_time) (a : tetra_addr) (d : ms_defrag) : res (ms_defrag * bitbuf) :=
  i <- ts_index t ;; b <- msd_get d i ;;
  let b := if df_is_inactive (df_st b) then b else df_new in
  n <- get_len_remaining src ;;
  ' (bits, src) <- copy_bits n src (df_bits b) ;;
  Ok (upd d i (mk_df DfActive a t t 1 false bits), src).
(** ms_defrag.rs:68-96 (with [DfActive]) and 98-127 (with [DfComplete]) *)
Definition msd_more (st : df_state) (src : bitbuf) (t : tdma_time) (d : ms_defrag) : res (ms_defrag * bitbuf) :=
  i <- ts_index t ;; b <- msd_get d i ;;
  if negb (df_is_active (df_st b)) then Ok (d, src)
  else
    l <- get_len (df_bits b) ;; n <- get_len_remaining src ;;
    if DEFRAG_BUF_MAX_LEN <? N.of_nat (l + n) then Ok (upd d i df_new, src)
    else
      ' (bits, src) <- copy_bits n src (df_bits b) ;;
      Ok (upd d i (mk_df st (df_addr b) (df_first b) t (df_frags b + 1) (df_aie b) bits), src).
(** ms_defrag.rs:139-154 *)
Definition msd_take (t : tdma_time) (d : ms_defrag) : res (option df_buf * ms_defrag) :=
  i <- ts_index t ;; b <- msd_get d i ;;
  match df_st b with
  | DfComplete =>
      bits <- set_raw_end (bpos (df_bits b)) (df_bits b) ;; bits <- seek 0 bits ;;
      Ok (Some (mk_df (df_st b) (df_addr b) (df_first b) (df_last b) (df_frags b) (df_aie b) bits), upd d i df_new)
  | _ => Ok (None, d)
  end.
(** umac_ms.rs:439 and 486: is there encryption information for this timeslot? *)
Definition msd_aie (t : tdma_time) (d : ms_defrag) : res bool := i <- ts_index t ;; b <- msd_get d i ;; Ok (df_aie b).

(** * Reception of signalling *)
(** what the entity sends: an SDU to the link layer (372-390, 506-524), the broadcast elements to the MLE (237-251), and
    to the lower MAC: the time (215-235), whether the slot is traffic (590-601), the scrambling code (728-737) *)
Inductive ms_out :=
| MoSdu (t : tdma_time) (sdu : bitbuf) (a : tetra_addr) (scr : N) (enc : N)
| MoSysinfo (t : tdma_time) (sdu : bitbuf)
| MoTime (t : tdma_time)
| MoTraffic (t : tdma_time) (traffic : bool)
| MoScrambling (t : tdma_time) (code : N).
(** [TmvUnitdataInd] with the time of its message, without the block *)
Record ms_ind := mk_msi { mi_time : tdma_time; mi_chan : lchan; mi_blk : blocknum; mi_scr : N }.

(** umac_ms.rs:254-404.  The handlers return the new state, the buffer, and what was sent. *)
Definition ms_resource (i : ms_ind) (d : ms_defrag) (b : bitbuf) : res (ms_defrag * bitbuf * list ms_out) :=
  pos <- get_pos b ;; assert (pos =? 0)%nat ;;;
  match mr_read b with
  | Panic => Panic
  | Err _ => Ok (d, b, [])
  | Ok (p, b) =>
      n <- get_len b ;;
      len <- (if (1 <=? mr_len p) && (mr_len p <? 58) then Ok (N.to_nat (mr_len p) * 8)%nat
              else if (mr_len p =? 62) || (mr_len p =? 63) then Ok n else Panic) ;;
      let len := if (n <? len)%nat then n else len in
      let orig_end := bend b in
      ' (nf, len, b) <- cut_pdu (mr_fill p) len b ;;
      match mr_addr p with
      | None => Ok (d, b, [])
      | Some a =>
          if 0 <? mr_encmode p then Ok (d, b, []) else
          ' (d, b, out) <-
            (if mr_len p =? 63 then ' (d, b) <- msd_first b (mi_time i) a d ;; Ok (d, b, [])
             else if mr_len p =? 62 then Ok (d, b, [])
             else
               r <- get_len_remaining b ;;
               if (r =? 0)%nat then Ok (d, b, [])
               else sdu <- bb_from_bitbuffer_pos b ;; Ok (d, b, [MoSdu (mi_time i) sdu a (mi_scr i) (mr_encmode p)])) ;;
          b <- next_pdu orig_end (len + nf) b ;;
          Ok (d, b, out)
      end
  end.
(** umac_ms.rs:406-447 *)
Definition ms_frag (i : ms_ind) (d : ms_defrag) (b : bitbuf) : res (ms_defrag * bitbuf * list ms_out) :=
  pos <- get_pos b ;; assert (pos =? 0)%nat ;;;
  match mfrag_read b with
  | Panic => Panic
  | Err _ => Ok (d, b, [])
  | Ok (fill, b) =>
      n <- get_len b ;;
      ' (_, _, b) <- cut_pdu fill n b ;;
      aie <- msd_aie (mi_time i) d ;;
      if (aie : bool) then Ok (d, b, [])
      else ' (d, b) <- msd_more DfActive b (mi_time i) d ;; Ok (d, b, [])
  end.
(** umac_ms.rs:449-531; the length is not compared with that of the block *)
Definition ms_end (i : ms_ind) (d : ms_defrag) (b : bitbuf) : res (ms_defrag * bitbuf * list ms_out) :=
  pos <- get_pos b ;; assert (pos =? 0)%nat ;;;
  match mend_read b with
  | Panic => Panic
  | Err _ => Ok (d, b, [])
  | Ok (p, b) =>
      assert (negb (me_len p =? 0)) ;;;
      let orig_end := bend b in
      ' (nf, len, b) <- cut_pdu (me_fill p) (N.to_nat (me_len p) * 8) b ;;
      aie <- msd_aie (mi_time i) d ;;
      assert (negb aie) ;;;
      ' (d, b) <- msd_more DfComplete b (mi_time i) d ;;
      ' (done, d) <- msd_take (mi_time i) d ;;
      match done with
      | None => Ok (d, b, [])
      | Some f =>
          b <- next_pdu orig_end (len + nf) b ;;
          Ok (d, b, [MoSdu (mi_time i) (df_bits f) (df_addr f) (mi_scr i) 0])
      end
  end.
(** umac_ms.rs:174-194 and 196-252; broadcast types other than SYSINFO panic, and so do those that do not exist *)
Definition ms_broadcast (i : ms_ind) (d : ms_defrag) (b : bitbuf) : res (ms_defrag * bitbuf * list ms_out) :=
  v <- peek_bits_posoffset b 2 2 ;; ty <- unwrap v ;;
  assert (ty =? 0) ;;;
  match si_read b with
  | Panic => Panic
  | Err _ => Ok (d, b, [])
  | Ok (p, b) =>
      sdu <- bb_from_bitbuffer_pos b ;;
      let t := mi_time i in
      let tick := match si_hyper p with
                  | Some h => if Z.of_N h =? tm_h t then [] else [MoTime (mk_time (tm_t t) (tm_f t) (tm_m t) (Z.of_N h))]
                  | None => [] end%Z in
      Ok (d, b, tick ++ [MoSysinfo t sdu])
  end.
(** umac_ms.rs:533-550: U-SIGNAL and supplementary PDUs are not implemented *)
Definition ms_pdu (i : ms_ind) (bits : N) (d : ms_defrag) (b : bitbuf) : res (ms_defrag * bitbuf * list ms_out) :=
  let ty := N.shiftr bits 1 in
  if ty =? 0 then ms_resource i d b
  else if ty =? 1 then (if N.land bits 1 =? 0 then ms_frag i d b else ms_end i d b)
  else if ty =? 2 then ms_broadcast i d b
  else Panic.
(** umac_ms.rs:108-172.  [fuel] is the length of the block; running out of it is a panic. *)
Fixpoint ms_sch (fuel : nat) (i : ms_ind) (d : ms_defrag) (b : bitbuf) : res (ms_defrag * list ms_out) :=
  match fuel with
  | O => Panic
  | S fuel =>
      v <- peek_bits b 3 ;;
      match v with
      | None => Ok (d, [])
      | Some bits =>
          let orig := bstart b in
          ' (d, b, out) <- ms_pdu i bits d b ;;
          n <- get_len b ;;
          if negb (bstart b =? orig)%nat && (16 <=? n)%nat then
            ' (d, out') <- ms_sch fuel i d b ;; Ok (d, out ++ out')
          else Ok (d, out)
      end
  end.
(** umac_ms.rs:552-602 *)
Definition ms_aach (i : ms_ind) (b : bitbuf) : res (list ms_out) :=
  if (tm_f (mi_time i) =? 18)%Z then
    match a18_read b with Panic => Panic | Err _ => Ok [] | Ok _ => Ok [MoTraffic (mi_time i) false] end
  else
    match aa_read b with
    | Panic => Panic
    | Err _ => Ok []
    | Ok (p, _) => Ok [MoTraffic (mi_time i) match aa_dl p with DlTraffic _ => true | _ => false end]
    end.

(** * The entity *)
(** umac_ms.rs:26-54 *)
Record umac_ms := mk_ums { ms_df : ms_defrag; ms_mcc : option N; ms_mnc : option N; ms_cc : option N; ms_code : option N }.
Definition ums_new : umac_ms := mk_ums msd_new None None None None.
(** what it receives: a block from the lower MAC; the network addresses from the MLE ([TlmcConfigureReq]) *)
Inductive ms_event := MeBlock (i : ms_ind) (b : bitbuf) | MeConfigure (t : tdma_time) (addr : option (N * N)).
(** umac_ms.rs:715-739 *)
Definition ms_update (t : tdma_time) (u : umac_ms) : umac_ms * list ms_out :=
  match ms_mcc u, ms_mnc u, ms_cc u with
  | Some mcc, Some mnc, Some cc =>
      let code := N.lor (u32 (N.shiftl (N.lor (N.lor cc (u32 (N.shiftl mnc 6))) (u32 (N.shiftl mcc 20))) 2)) 3 in
      (mk_ums (ms_df u) (ms_mcc u) (ms_mnc u) (ms_cc u) (Some code), [MoScrambling t code])
  | _, _, _ => (u, [])
  end.
(** umac_ms.rs:68-106, 604-703 (a BSCH block is read and dropped) and 741-758 *)
Definition ms_step (e : ms_event) (u : umac_ms) : res (umac_ms * list ms_out) :=
  match e with
  | MeBlock i b =>
      let sch := (' (d, out) <- ms_sch (S (bend b - bstart b)) i (ms_df u) b ;; Ok (mk_ums d (ms_mcc u) (ms_mnc u) (ms_cc u) (ms_code u), out)) in
      match mi_chan i with
      | Aach => out <- ms_aach i b ;; Ok (u, out)
      | Bsch => match sync_read b with Panic => Panic | _ => Ok (u, []) end
      | SchF => match mi_blk i with BothBlocks => sch | _ => Panic end
      | Bnch | Stch | SchHd => match mi_blk i with Block1 | Block2 => sch | _ => Panic end
      | _ => Panic
      end
  | MeConfigure t (Some (mcc, mnc)) =>
      let u := mk_ums (ms_df u) (Some mcc) (Some mnc) (ms_cc u) (ms_code u) in Ok (ms_update t u)
  | MeConfigure _ None => Ok (u, [])
  end.
Fixpoint ms_run (evs : list ms_event) (u : umac_ms) : res (umac_ms * list ms_out) :=
  match evs with
  | [] => Ok (u, [])
  | e :: r => ' (u, out) <- ms_step e u ;; ' (u, out') <- ms_run r u ;; Ok (u, out ++ out')
  end.
