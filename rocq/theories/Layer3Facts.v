(** No message that is not hostile in the sense of [Layer3Spec] makes mobility management or the short data service panic. *)
From Verif Require Import Base BitsLib BitBuffer BitBufferProofs Codec CodecProofs TypedFields AMap MmFields MmPdus CmceFields CmcePdus MacFields BrewRoute Registry
  CallControl Mobility MobilitySpec MobilityFacts Sds RegistrySpec SdsSpec SdsProofs PduSpec Layer3Spec Layer3Parse Layer3Proofs.
Open Scope N_scope.

Lemma from_ok {A} (r : reader A) b : wf b -> from (remaining b) 0 r -> (exists p b', r b = Ok (p, b')) \/ (exists e, r b = Err e).
Proof.
  intros W F. specialize (F b W eq_refl). destruct (r b) as [[p b']|e|]; [left; now exists p, b'|right; now exists e|]. exfalso. exact F.
Qed.

Lemma mobility_survives : forall cfg hint i s, wf (di_sdu i) -> ad_ssi (di_addr i) < 16777216 -> ~ hostile_mm (remaining (di_sdu i)) ->
  exists s' q, mm_rx cfg hint i s = Ok (s', q).
Proof.
  intros cfg hint i s W A H.
  assert (X : forall {T} (r : reader T) k, from (remaining (di_sdu i)) 0 r -> (forall p b, r (di_sdu i) = Ok (p, b) -> exists s' q, k p = Ok (s', q)) ->
    exists s' q, mm_parsed r i s k = Ok (s', q)).
  { intros T r k F K. unfold mm_parsed. destruct (from_ok r _ W F) as [(p & b & E)|(e & E)]; rewrite E; [exact (K p b E)|now exists s, []]. }
  unfold mm_rx. rewrite peek_bits_spec by (assumption || lia).
  match goal with |- context [if ?c then _ else _] => destruct c end; cbn [bind]; [|now exists s, []].
  set (ty := bits_val _). clearbody ty.
  destruct (ty =? MmUl_UItsiDetach).
  { apply X; [now apply itsi_detach_safe|]. intros p b E. destruct (rx_u_itsi_detach cfg hint i s) as [s' q]. now exists s', q. }
  destruct (ty =? MmUl_ULocationUpdateDemand).
  { apply X; [now apply lu_demand_safe|]. intros p b E. destruct (lu_supported p) eqn:L.
    - apply lu_supported_iff in L. destruct (location_update cfg hint i s p b W E L A) as (s' & q & M & _). exists s', q.
      unfold mm_rx in M. rewrite (lu_type _ _ _ E) in M. cbn [bind] in M. change (MmUl_ULocationUpdateDemand =? MmUl_UItsiDetach) with false in M.
      change (MmUl_ULocationUpdateDemand =? MmUl_ULocationUpdateDemand) with true in M. cbv iota in M. unfold mm_parsed in M. now rewrite E in M.
    - unfold rx_u_lu_demand. rewrite L. now exists s, []. }
  destruct (ty =? MmUl_UMmStatus).
  { apply X; [apply status_mm_safe|]. intros p b E. pose proof (status_answered cfg hint i s p b E) as M.
      unfold mm_rx in M. rewrite (status_type _ _ _ E) in M. cbn [bind] in M. change (MmUl_UMmStatus =? MmUl_UItsiDetach) with false in M.
      change (MmUl_UMmStatus =? MmUl_ULocationUpdateDemand) with false in M.
      change (MmUl_UMmStatus =? MmUl_UMmStatus) with true in M. cbv iota in M. unfold mm_parsed in M. rewrite E in M. do 2 eexists. exact M. }
  destruct (ty =? MmUl_UAttachDetachGroupIdentity); [|now exists s, []].
  apply X; [now apply attach_safe|]. intros p b E.
  assert (M : exists s' q, mm_rx cfg hint i s = Ok (s', q) \/ u_attach_detach_group_identity_uplink p = None).
  { destruct (u_attach_detach_group_identity_uplink p) as [l|] eqn:L; [|exists s, []; now right].
    destruct (u_attach_detach_group_identity_attach_detach_mode p) eqn:D.
    - destruct (group_request cfg hint i s p b l W E L (or_introl D)) as (s' & q & M & _). exists s', q. now left.
    - destruct (aget (ad_ssi (di_addr i)) (mo_clients s)) as [c|] eqn:K.
      + destruct (group_request cfg hint i s p b l W E L) as (s' & q & M & _); [right; unfold mm_known; congruence|]. exists s', q. now left.
      + do 2 eexists. left. refine (group_request_stranger cfg hint i s p b l E L D _). unfold mm_known. congruence. }
  destruct M as (s' & q & [M|M]).
  - unfold mm_rx in M. rewrite (attach_type _ _ _ E) in M. cbn [bind] in M. change (MmUl_UAttachDetachGroupIdentity =? MmUl_UItsiDetach) with false in M.
    change (MmUl_UAttachDetachGroupIdentity =? MmUl_ULocationUpdateDemand) with false in M. change (MmUl_UAttachDetachGroupIdentity =? MmUl_UMmStatus) with false in M.
    change (MmUl_UAttachDetachGroupIdentity =? MmUl_UAttachDetachGroupIdentity) with true in M. cbv iota in M. unfold mm_parsed in M. rewrite E in M. now exists s', q.
  - unfold rx_u_attach_detach. rewrite M. now exists s, [].
Qed.

Lemma short_data_survives : forall cfg h i, wf (mi_sdu i) -> ad_ssi (mi_addr i) < 16777216 -> ~ hostile_cmce (remaining (mi_sdu i)) ->
  (exists q, route_rf_deliver cfg (reg_run h) i = Ok q) /\ exists q, route_status_deliver cfg (reg_run h) i = Ok q.
Proof.
  intros cfg h i W A H. assert (F : fit 24 (ad_ssi (mi_addr i)) = true) by (apply N.ltb_lt; exact A). split.
  - destruct (from_ok u_sds_data_from_bitbuf _ W (sds_data_safe _ H)) as [(p & b & E)|E].
    + destruct (u_sds_data_called_party_ssi p) as [d|] eqn:D; [destruct (radio_short_data cfg h i p b d W F E D) as (q & Q & _); now exists q|].
      exists []. apply radio_short_data_dropped. left. now exists p, b.
    + exists []. apply radio_short_data_dropped. now right.
  - destruct (from_ok u_status_from_bitbuf _ W (status_safe _ H)) as [(p & b & E)|E].
    + destruct (u_status_called_party_ssi p) as [d|] eqn:D; [destruct (radio_status cfg h i p b d W F E D) as (q & Q & _); now exists q|].
      exists []. apply radio_status_dropped. left. now exists p, b.
    + exists []. apply radio_status_dropped. now right.
Qed.
