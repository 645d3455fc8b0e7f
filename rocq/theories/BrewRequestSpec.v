(** What the theorems on the set-up and the end of network calls (C50) say, apart from the model's own helpers. *)
From Verif Require Import Base AMap CallControl CcSpec BrewWorker BrewEntity.
Open Scope N_scope.

(** Who talks in call [u] of the network, if the call runs: what the network said last, unless call control ended the
    call or the connection was lost since *)
Definition talker_after (u : N) (v : option N) (i : brew_in) : option N :=
  match i with
  | InEvent _ _ _ _ (BeGroupCallStart u' source _ _ _) => if u' =? u then Some source else v
  | InEvent _ _ _ _ (BeGroupCallEnd u' _) => if u' =? u then None else v
  | InEvent _ _ _ _ BeDisconnected => None
  | InControl _ _ (CtlNetworkCallEnd u') => if u' =? u then None else v
  | _ => v
  end.
Definition talker (l : list brew_in) (u : N) : option N := fold_left (talker_after u) l None.

(** Somebody talks in a call of group [g]. *)
Definition group_busy (s : cc) (g : N) : Prop := exists id c, call_of s id = Some c /\ ac_dest c = g /\ ac_tx c = true.
