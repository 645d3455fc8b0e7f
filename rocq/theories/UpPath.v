(** The way up: a received block goes through the upper MAC, the link layer and the mobile link entity to mobility
    management and CMCE.  This models how crates/tetra-entities/src/messagerouter.rs passes the messages on:
    first in, first out (C42), so that all messages of one layer are dealt with before those they cause in the next.
    Simplification: messages that go elsewhere (OutStolen, OutSlot, voice) are left to their own properties. *)
From Verif Require Import Base TdmaTime BitBuffer MacFields Llc UmacBs MleBs.
Open Scope N_scope.

(** umac_bs.rs:549-571 and the like: [TmaUnitdataInd] to the link layer, llc_bs_ms.rs:342-380 *)
Fixpoint llc_all (outs : list um_out) (s : llc unit) : res (list tla_ind * llc unit) :=
  match outs with
  | [] => Ok ([], s)
  | OutSdu t b a _ :: r =>
      '(ev, s) <- rx_unitdata_ind t a (Some b) s ;;
      '(more, s) <- llc_all r s ;;
      Ok (flat_map (fun e => match e with LToMle i => [i] | _ => [] end) ev ++ more, s)
  | _ :: r => llc_all r s
  end.
(** llc_bs_ms.rs:504-558 to mle_bs.rs:94-109 *)
Fixpoint mle_all (l : list tla_ind) (s : mle) : res (list mle_out * mle) :=
  match l with
  | [] => Ok ([], s)
  | i :: r =>
      '(o, s) <- rx_tla_prim i s ;;
      '(more, s) <- mle_all r s ;;
      Ok (o ++ more, s)
  end.
(** cmce_bs.rs:108-120, mm_bs.rs:701-722: CMCE panics on the message of the packet data service *)
Fixpoint layer3_all (l : list mle_out) : res unit :=
  match l with
  | [] => Ok tt
  | UpSndcp _ _ _ :: _ => Panic
  | _ :: r => layer3_all r
  end.
Definition rise (outs : list um_out) (s : llc unit) (m : mle) : res (list mle_out * llc unit * mle) :=
  '(inds, s) <- llc_all outs s ;;
  '(ups, m) <- mle_all inds m ;;
  _ <- layer3_all ups ;;
  Ok (ups, s, m).
(** A received block, from the lower MAC to layer 3. *)
Definition rx_block (i : tmv_ind) (pdu : bitbuf) (u : umac) (s : llc unit) (m : mle) : res (list mle_out * umac * llc unit * mle) :=
  '(u, outs) <- rx_tmv_unitdata_ind i pdu u ;;
  '(ups, s, m) <- rise outs s m ;;
  Ok (ups, u, s, m).
