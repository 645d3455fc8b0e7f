(** The set-up and the end of network calls: concrete histories. *)
From Verif Require Import Base BitBuffer AMap AMapOrder TdmaTime TimeslotAlloc MacFields UmacCircuits CmceFields CmcePdus CmceSpec SsiRanges BrewRoute Registry
  CircuitMgr CallControl CcSpec CcHistory CcFacts VoicePack JitterBuffer BrewProtocol BrewWorker BrewEntity BrewSystem BrewSpec BrewFacts BrewRequestSpec.
Open Scope N_scope.

Definition ex_calls : list brew_in :=
  [InEvent reg_new [] [] 0 (BeGroupCallStart 7 5 100 0 0); InEvent reg_new [] [] 0 (BeGroupCallStart 8 6 200 0 0); InEvent reg_new [] [] 0 (BeGroupCallStart 9 6 300 0 0);
   InEvent reg_new [] [] 0 (BeGroupCallEnd 9 0)].
Lemma requests_met : exists s o, be_run net_cfg 0 ex_calls brew_new = Ok (s, o) /\ talker ex_calls 7 = Some 5 /\ talker ex_calls 8 = Some 6 /\ talker ex_calls 9 = None /\ length o = 4%nat.
Proof. eexists _, _. split; [vm_compute; reflexivity|]. repeat split. Qed.

Definition ex_listen : list cc_event := [EvSubscriber [] [] 1 [100; 200; 300; 400] SubAffiliate].
Definition net_start (u source g : N) : cc_event := EvControl [] (CtlNetworkCallStart u source g 0).
Fixpoint cc_run (l : list cc_event) (s : cc) : res cc := match l with [] => Ok s | e :: t => '(s, _) <- cc_step ex_cfg e s ;; cc_run t s end.
Lemma cc_run_reachable l : forall s s', reachable ex_cfg s -> cc_run l s = Ok s' -> reachable ex_cfg s'.
Proof.
  induction l as [|e t IH]; intros s s' R E; cbn [cc_run] in E; [now injection E as <-|]. destruct (cc_step ex_cfg e s) as [[s1 q]| |] eqn:X; try discriminate.
  cbn [bind] in E. exact (IH _ _ (reachable_step ex_cfg s e s1 q R X) E).
Qed.
Definition cc_end (l : list cc_event) : cc := match cc_run l cc_new with Ok s => s | _ => cc_new end.
Definition answer_of (e : cc_event) (s : cc) : cc * list cc_msg := match cc_step ex_cfg e s with Ok r => r | _ => (cc_new, []) end.
(** One call is running; three calls are running. *)
Definition one_call : cc := Eval vm_compute in cc_end (ex_listen ++ [net_start 7 5 100]).
Definition three_calls : cc := Eval vm_compute in cc_end (ex_listen ++ [net_start 7 5 100; net_start 8 5 200; net_start 9 6 300]).
Lemma answer_met : reachable ex_cfg one_call /\
  for_brew (snd (answer_of (net_start 8 6 200) one_call)) = [CtlNetworkCallReady 8 5 3 5] /\
  for_brew (snd (answer_of (net_start 8 6 100) one_call)) = [CtlNetworkCallEnd 8] /\
  for_brew (snd (answer_of (net_start 8 6 500) one_call)) = [CtlNetworkCallEnd 8].
Proof. split; [|vm_compute; auto]. apply (cc_run_reachable (ex_listen ++ [net_start 7 5 100]) cc_new); [constructor|vm_compute; reflexivity]. Qed.

Lemma unanswered : exists s s', reachable ex_cfg s /\ listened s 400 /\ ~ group_busy s 400 /\ cc_step ex_cfg (net_start 10 5 400) s = Ok (s', []).
Proof.
  exists three_calls, (fst (answer_of (net_start 10 5 400) three_calls)).
  split; [apply (cc_run_reachable (ex_listen ++ [net_start 7 5 100; net_start 8 5 200; net_start 9 6 300]) cc_new); [constructor|vm_compute; reflexivity]|].
  split; [|split].
  - exists 1, [400; 300; 200; 100]. split; [vm_compute; reflexivity|]. cbn. auto.
  - intros (id & c & A & D & _). unfold call_of in A. apply aget_in in A. vm_compute in A. repeat (destruct A as [A|A]; [injection A as <- <-; discriminate D|]). exact A.
  - vm_compute. reflexivity.
Qed.

Lemma end_met : reachable ex_cfg one_call /\ call_of (fst (answer_of (EvControl [] (CtlNetworkCallEnd 7)) one_call)) 4 <> call_of one_call 4 /\
  (exists c, call_of one_call 4 = Some c /\ ac_uuid c = Some 7 /\ ac_tx c = true).
Proof.
  split; [apply (cc_run_reachable (ex_listen ++ [net_start 7 5 100]) cc_new); [constructor|vm_compute; reflexivity]|]. split; [vm_compute; discriminate|].
  eexists. split; [vm_compute; reflexivity|]. split; reflexivity.
Qed.
