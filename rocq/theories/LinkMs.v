(** The link layer of a mobile station, which is that of a base station (llc_bs_ms.rs), on top of its MAC. *)
From Verif Require Import Base TdmaTime BitBuffer MacFields Llc UmacMs.

(** umac_ms.rs:373-390 and 506-523: [TmaUnitdataInd] to the link layer, llc_bs_ms.rs:342-380; messages are passed on first in,
    first out (messagerouter.rs, C42).  Simplification: what the link layer does on ticks and what it would send itself is left
    out, as the upper MAC of a mobile station sends nothing; the rest of what the upper MAC hands out goes elsewhere. *)
Fixpoint link_all (outs : list ms_out) (s : llc unit) : res (list tla_ind * llc unit) :=
  match outs with
  | [] => Ok ([], s)
  | MoSdu t b a _ _ :: r =>
      '(ev, s) <- rx_unitdata_ind t a (Some b) s ;;
      '(more, s) <- link_all r s ;;
      Ok (flat_map (fun e => match e with LToMle i => [i] | _ => [] end) ev ++ more, s)
  | _ :: r => link_all r s
  end.
