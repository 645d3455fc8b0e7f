(** Examples and counterexamples on short data to and from the network. *)
From Verif Require Import Base BitBuffer BitBufferProofs BitBufferOps TdmaTime MacFields CmceFields CmcePdus PduSpec CmceSpec BrewRoute Registry RegistrySpec CallControl
  Sds SdsSpec SdsFacts BrewProtocol BrewProtocolSpec BrewProtocolProofs BrewWorker BrewEntity NetShortSpec NetShortProofs.
Open Scope N_scope.

(** The header of a short message, then its data *)
Definition net_header (u source dest : N) : list N := build_short_transfer u source dest.
Definition net_frame (u n : N) (payload : list N) : list N := build_sds_frame u n payload.

Lemma heard cfg data w e : worker_receive cfg data worker_new = Ok (w, e) -> hears cfg [WkReceive data] w e.
Proof. intros E. exact (hears_message cfg [] worker_new [] data w e (hears_nothing cfg) E). Qed.

Definition ex_wait : worker := Eval vm_compute in match worker_receive ex_net (net_header 77 5 2) worker_new with Ok (w, _) => w | _ => worker_new end.
Lemma net_met : exists l w e, hears ex_net l w e /\ header l 77 = Some (5, 2) /\ is_here ex_told 2 /\
  brew_sds_enabled ex_net = true /\ fit 24 5 = true /\ sendable (SdsType4 20 [0x82; 0x04; 0xA0]) = true /\
  Forall byte (net_frame 77 20 [0x82; 0x04; 0xA0]) /\ bytes (net_frame 77 20 [0x82; 0x04; 0xA0]) (BmFrame (mk_brew_frame 1 77 20 [0x82; 0x04; 0xA0])) /\
  exists w', worker_receive ex_net (net_frame 77 20 [0x82; 0x04; 0xA0]) w = Ok (w', [BeSdsTransfer 77 5 2 [0x82; 0x04; 0xA0] 20]).
Proof.
  exists [WkReceive (net_header 77 5 2)], ex_wait, []. split; [apply heard; vm_compute; reflexivity|]. split; [vm_compute; reflexivity|]. split; [vm_compute; reflexivity|].
  split; [reflexivity|]. split; [reflexivity|]. split; [reflexivity|].
  assert (F : Forall byte (net_frame 77 20 [0x82; 0x04; 0xA0])) by (vm_compute; repeat constructor).
  split; [exact F|]. split; [apply parse_iff; [exact F|vm_compute; reflexivity]|]. exists worker_new. vm_compute. reflexivity.
Qed.

(** A header and a frame that crash the base station *)
Definition crashes (source n : N) (payload : list N) : Prop := exists w ev t,
  hears ex_net [WkReceive (net_header 77 source 2); WkReceive (net_frame 77 n payload)] w [ev] /\ is_here ex_told 2 /\
  be_step ex_net 0 (InEvent (reg_run ex_told) [] [] 0 ev) (be_set_connected true brew_new) =
    Ok (be_set_connected true brew_new, [BoSds t source 2 (SdsType4 n payload); BoCmd (BcSdsReport 77 0)]) /\
  rx_sds_from_brew (reg_run ex_told) t source 2 (SdsType4 n payload) = Panic.
Lemma two_heard cfg a b w1 e1 w2 e2 : worker_receive cfg a worker_new = Ok (w1, e1) -> worker_receive cfg b w1 = Ok (w2, e2) ->
  hears cfg [WkReceive a; WkReceive b] w2 (e1 ++ e2).
Proof. intros E1 E2. exact (hears_message cfg [WkReceive a] w1 e1 b w2 e2 (heard _ _ _ _ E1) E2). Qed.
Lemma crash_length : crashes 5 80 [1; 2; 3].
Proof.
  exists worker_new, (BeSdsTransfer 77 5 2 [1; 2; 3] 80), (forward_to_timeslot time_default 1).
  split; [apply (two_heard ex_net _ _ ex_wait [] worker_new [BeSdsTransfer 77 5 2 [1; 2; 3] 80]); vm_compute; reflexivity|].
  split; [vm_compute; reflexivity|]. split; vm_compute; reflexivity.
Qed.
Lemma crash_source : crashes 16777216 8 [1].
Proof.
  exists worker_new, (BeSdsTransfer 77 16777216 2 [1] 8), (forward_to_timeslot time_default 1).
  split; [apply (two_heard ex_net _ _ (mk_worker [] [(77, (16777216, 2))]) [] worker_new [BeSdsTransfer 77 16777216 2 [1] 8]); vm_compute; reflexivity|].
  split; [vm_compute; reflexivity|]. split; vm_compute; reflexivity.
Qed.

Lemma net_send_met : be_connected (be_set_connected true brew_new) = true /\ brew_sds_enabled ex_net = true /\ u128 77 /\ sendable SdsFacts.text = true /\ sendable (SdsType1 40000) = true /\
  worker_command ex_net (mk_now 0 0) true [] [] (BcSds 77 5 2 (sds_to_arr SdsFacts.text) 20) worker_new = (worker_new, [net_header 77 5 2; net_frame 77 20 [0x82; 0x04; 0xA0]]).
Proof. split; [reflexivity|]. split; [reflexivity|]. split; [reflexivity|]. split; [reflexivity|]. split; reflexivity. Qed.

Lemma control_met : fit 24 5 = true /\ sendable (SdsType4 20 [0x82; 0x04; 0xA0]) = true /\ is_here ex_told 2 /\ ~ is_here ex_told 3.
Proof. split; [reflexivity|]. split; [reflexivity|]. split; [vm_compute; reflexivity|]. vm_compute. discriminate. Qed.
