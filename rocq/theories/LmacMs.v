(** Model of crates/tetra-entities/src/lmac/lmac_ms.rs: the lower MAC of a mobile station, and with the upper MAC.
    Simplifications: log output is dropped; of the state, what is never written after its creation is left out: the traffic
    channels, the usage marker of the current burst and the two marks for stolen half slots (both always false, so that
    lines 126-130 are never reached); messages of kinds that make the entity panic whatever its state (201, 219-221, 249-251,
    272-274), and [TmvUnitdataReq], which is only logged, are not representable. *)
From Verif Require Import Base BitBuffer TdmaTime UlSched Scrambler ErrorControl DlSched UmacMs.
Open Scope nat_scope.

(** phy_types.rs:21-32; the types the uplink has are one *)
Inductive phy_type := TyBBK | TySB1 | TySB2 | TyNDB | TyUplink.
(** [TpUnitdataInd]: the fields that are looked at *)
Record phy_blk := mk_pblk { pb_type : phy_type; pb_num : blocknum; pb_block : bitbuf }.
(** lmac_ms.rs:28-52 (the state), 55-64 (a new entity) *)
Record lmac_ms := mk_lms { lms_code : option N; lms_time : option tdma_time; lms_traffic : bool }.
Definition lms_new : lmac_ms := mk_lms None None false.
Definition lms_now (l : lmac_ms) : tdma_time := match lms_time l with Some t => t | None => time_default end.
(** lmac_ms.rs:100-144 *)
Definition lms_channel (p : phy_blk) (l : lmac_ms) : res lchan :=
  match pb_type p with
  | TyBBK => Ok Aach
  | TySB1 => Ok Bsch
  | ty =>
      let t := lms_now l in
      assert (negb (is_mandatory_bsch t && match pb_num p with Block1 => true | _ => false end)) ;;;
      if match ty with TySB2 => is_mandatory_bnch t | _ => false end then Ok Bnch
      else if lms_traffic l then Ok TchS
      else Ok match pb_num p with BothBlocks => SchF | _ => SchHd end
  end.
(** lmac_ms.rs:66-98 *)
Definition lms_bbk (p : phy_blk) (l : lmac_ms) : res (option ms_event) :=
  match lms_code l with
  | None => Ok None
  | Some code => b <- decode_aach (pb_block p) code ;; Ok (Some (MeBlock (mk_msi (lms_now l) Aach BlockUndef code) b))
  end.
(** lmac_ms.rs:150-196 *)
Definition lms_cp (p : phy_blk) (c : lchan) (l : lmac_ms) : res (option ms_event) :=
  ' (o, crc) <- decode_cp c (pb_block p) (match pb_type p with TySB1 => true | _ => false end) (lms_code l) ;;
  match o with
  | None => Ok None
  | Some b =>
      if (crc : bool) then
        code <- (match c with Bsch => Ok SCRAMB_INIT | _ => unwrap (lms_code l) end) ;;
        Ok (Some (MeBlock (mk_msi (lms_now l) c (pb_num p) code) b))
      else Ok None
  end.
(** lmac_ms.rs:198-215; 146-148: nothing is made of traffic *)
Definition lms_rx (p : phy_blk) (l : lmac_ms) : res (option ms_event) :=
  c <- lms_channel p l ;;
  match c with
  | Aach => lms_bbk p l
  | TchS | Tch24 | Tch48 | Tch72 => Ok None
  | _ => lms_cp p c l
  end.
(** lmac_ms.rs:217-237; each [TmvConfigureReq] of the upper MAC sets one thing.  What goes to other layers leaves the lower
    MAC as it is. *)
Definition lms_configure (l : lmac_ms) (o : ms_out) : lmac_ms :=
  match o with
  | MoTime t => mk_lms (lms_code l) (Some t) (lms_traffic l)
  | MoScrambling _ code => mk_lms (Some code) (lms_time l) (lms_traffic l)
  | MoTraffic _ b => mk_lms (lms_code l) (lms_time l) b
  | _ => l
  end.
(** lmac_ms.rs:278-288 *)
Definition lms_tick (t : tdma_time) (l : lmac_ms) : res lmac_ms :=
  match lms_time l with
  | None => Ok (mk_lms (lms_code l) None false)
  | Some m => assert (time_eqb m t) ;;; Ok (mk_lms (lms_code l) (Some (add_timeslots m 1)) false)
  end.

(** * With the upper MAC *)
Record mobile := mk_mobile { mo_lm : lmac_ms; mo_um : umac_ms }.
Definition mobile_new : mobile := mk_mobile lms_new ums_new.
(** The blocks of a slot wait in the queue of messages.  What the lower MAC makes of a block of the access assignment channel
    goes to the head of the queue (lmac_ms.rs:95-97), and so does the answer (umac_ms.rs:601); all else goes to its
    end (lmac_ms.rs:194), behind the blocks that wait.  The second component is what was put at the end. *)
Fixpoint mob_blocks (l : list phy_blk) (m : mobile) : res (mobile * list ms_event * list ms_out) :=
  match l with
  | [] => Ok (m, [], [])
  | p :: r =>
      e <- lms_rx p (mo_lm m) ;;
      match e with
      | None => mob_blocks r m
      | Some e =>
          if match e with MeBlock i _ => match mi_chan i with Aach => true | _ => false end | _ => false end then
            ' (u, out) <- ms_step e (mo_um m) ;;
            ' (m, q, out') <- mob_blocks r (mk_mobile (fold_left lms_configure out (mo_lm m)) u) ;; Ok (m, q, out ++ out')
          else ' (m, q, out) <- mob_blocks r m ;; Ok (m, e :: q, out)
      end
  end.
(** a tick; the blocks of a slot as demodulated; the network addresses from the MLE.  The upper MAC does nothing on ticks *)
Inductive mob_event := MvTick (t : tdma_time) | MvSlot (l : list phy_blk) | MvConfigure (t : tdma_time) (addr : option (N * N)).
Definition mob_upper (evs : list ms_event) (m : mobile) : res (mobile * list ms_out) :=
  ' (u, out) <- ms_run evs (mo_um m) ;; Ok (mk_mobile (fold_left lms_configure out (mo_lm m)) u, out).
Definition mob_step (e : mob_event) (m : mobile) : res (mobile * list ms_out) :=
  match e with
  | MvTick t => l <- lms_tick t (mo_lm m) ;; Ok (mk_mobile l (mo_um m), [])
  | MvSlot l => ' (m, q, out) <- mob_blocks l m ;; ' (m, out') <- mob_upper q m ;; Ok (m, out ++ out')
  | MvConfigure t addr => mob_upper [MeConfigure t addr] m
  end.
Fixpoint mob_run (evs : list mob_event) (m : mobile) : res (mobile * list ms_out) :=
  match evs with
  | [] => Ok (m, [])
  | e :: r => ' (m, out) <- mob_step e m ;; ' (m, out') <- mob_run r m ;; Ok (m, out ++ out')
  end.
