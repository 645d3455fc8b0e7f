(** What the network knows of the radios: a concrete history (C57). *)
From Verif Require Import Base AMap AMapOrder TdmaTime MacFields MmFields MmPdus CmceFields BrewRoute Registry CallControl CcFacts Mobility MobilitySpec MobilityFacts
  BrewProtocol BrewProtocolProofs BrewWorker BrewEntity BrewViewSpec BrewRegistry.
Open Scope N_scope.

Fixpoint mm_play (cfg : cfg_route) (l : list mm_ind) (m : mob) (us : list sub_update) : option (mob * list sub_update) :=
  match l with
  | [] => Some (m, us)
  | i :: t => match mm_rx cfg [] i m with Ok (m', q) => mm_play cfg t m' (us ++ to_network q) | _ => None end
  end.
Lemma mm_play_reports cfg l : forallb orderly_ind l = true -> forall m us m' us', mm_reports cfg m us -> mm_play cfg l m us = Some (m', us') -> mm_reports cfg m' us'.
Proof.
  induction l as [|i t IH]; intros F m us m' us' R E; cbn [mm_play] in E; [now injection E as <- <-|].
  cbn [forallb] in F. apply andb_true_iff in F. destruct F as [F1 F2]. destruct (mm_rx cfg [] i m) as [[m1 q]| |] eqn:E1; try discriminate.
  refine (IH F2 _ _ _ _ _ E). exact (mm_handles cfg m us [] i m1 q R (orderly_ind_ok i F1) E1).
Qed.

Definition noon : now := mk_now 1000 0.
Fixpoint work (cfg : cfg_route) (cs : list brew_cmd) (w : worker) : worker * list (list N) :=
  match cs with
  | [] => (w, [])
  | c :: t => let (w1, m) := worker_command cfg noon true [] [] c w in let (w2, ms) := work cfg t w1 in (w2, m ++ ms)
  end.
Lemma work_works cfg cs : forall w, works cfg w cs (fst (work cfg cs w)) (snd (work cfg cs w)).
Proof.
  induction cs as [|c t IH]; intros w; cbn [work]; [constructor|]. destruct (worker_command cfg noon true [] [] c w) as [w1 m] eqn:E.
  specialize (IH w1). destruct (work cfg t w1) as [w2 ms]. cbn [fst snd] in *. refine (works_one cfg w noon true [] [] c w1 m t w2 ms _ E IH). now split.
Qed.

(** The network connects when half of the updates have come in, and one command waits from before. *)
Definition view_updates := Eval vm_compute in match mm_play ex_cfg ex_talk mob_new [] with Some (_, us) => us | None => [] end.
Definition view_mob := Eval vm_compute in match mm_play ex_cfg ex_talk mob_new [] with Some (m, _) => m | None => mob_new end.
Definition view_l1 : list brew_in := map as_in (firstn 3 view_updates).
Definition view_l2 : list brew_in := map as_in (skipn 3 view_updates).
Definition view_connect : brew_in := InEvent reg_new [] [] 0 BeConnected.
Definition view_1 := Eval vm_compute in match be_run ex_cfg 0 view_l1 brew_new with Ok r => r | _ => (brew_new, []) end.
Definition view_2 := Eval vm_compute in match be_run ex_cfg 0 (view_connect :: view_l2) (fst view_1) with Ok r => r | _ => (brew_new, []) end.
Definition view_msgs := Eval vm_compute in snd (work ex_cfg (skipn 2 (commands (snd view_1)) ++ commands (snd view_2)) worker_new).

Lemma view_met : exists m l1 l2 s1 o1 s2 o2 before pending w msgs,
  mm_reports ex_cfg m (updates (l1 ++ l2)) /\ Forall numbers_ok (l1 ++ l2) /\
  be_run ex_cfg 0 l1 brew_new = Ok (s1, o1) /\ be_run ex_cfg 0 (view_connect :: l2) s1 = Ok (s2, o2) /\
  commands o1 = before ++ pending /\ works ex_cfg worker_new (pending ++ commands o2) w msgs /\
  length pending = 1%nat /\ length msgs = 11%nat /\ mm_groups 1 m = Some [400; 100] /\ brew_issi_routable ex_cfg 1 = true /\ brew_gssi_routable ex_cfg 100 = true.
Proof.
  exists view_mob, view_l1, view_l2, (fst view_1), (snd view_1), (fst view_2), (snd view_2), (firstn 2 (commands (snd view_1))), (skipn 2 (commands (snd view_1))),
    (fst (work ex_cfg (skipn 2 (commands (snd view_1)) ++ commands (snd view_2)) worker_new)), view_msgs.
  split; [apply (mm_play_reports ex_cfg ex_talk eq_refl mob_new [] _ _ (mm_starts ex_cfg)); vm_compute; reflexivity|].
  split; [repeat constructor|]. split; [vm_compute; reflexivity|]. split; [vm_compute; reflexivity|]. split; [reflexivity|].
  split; [exact (work_works ex_cfg _ worker_new)|]. repeat split; vm_compute; reflexivity.
Qed.
