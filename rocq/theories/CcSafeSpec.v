(** What call control may be given without crashing: the events of [CallControl] that a base station with honest lower
    layers and an honest network side can meet, whatever the radios send short of a hostile message. *)
From Verif Require Import Base BitBuffer BitBufferProofs TdmaTime TdmaTimeProofs MacFields BrewRoute CallControl Layer3Spec.
Open Scope N_scope.

(** - the clock shows a valid time;
    - a message of a radio comes from a 24-bit address and is not hostile in the sense of [Layer3Spec];
    - the network announces a call of a 24-bit speaker to a group it may use; anything else may be announced freely;
    - mobility management may report anything. *)
Definition acceptable (cfg : cfg_route) (e : cc_event) : Prop :=
  match e with
  | EvTick _ t => vtime t
  | EvUplink i => wf (mi_sdu i) /\ ad_ssi (mi_addr i) < 2 ^ 24 /\ ~ hostile_cmce (remaining (mi_sdu i))
  | EvControl _ (CtlNetworkCallStart _ source dest _) => source < 2 ^ 24 /\ brew_gssi_routable cfg dest = true
  | EvControl _ _ => True
  | EvSubscriber _ _ _ _ _ => True
  end.

(** The states call control gets into when it is given nothing else *)
Inductive serves (cfg : cfg_route) : cc -> Prop :=
| serves_new : serves cfg cc_new
| serves_step s e s' q : serves cfg s -> acceptable cfg e -> cc_step cfg e s = Ok (s', q) -> serves cfg s'.
