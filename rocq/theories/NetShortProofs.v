(** Proofs about short data to and from the network (C56). *)
From Verif Require Import Base BitsLib BitBuffer BitBufferProofs BitBufferOps AMap AMapOrder AMapOrderProofs TdmaTime MacFields CmceFields CmceFieldsProofs CmcePdus
  PduSpec PduProofs CmceSpec BrewRoute Registry RegistrySpec RegistryProofs CallControl Sds SdsSpec SdsProofs BrewProtocol BrewProtocolSpec BrewProtocolProofs BrewWorker BrewEntity NetShortSpec.
Open Scope N_scope.

(** ** Headers *)
Lemma header_snoc l i u : header (l ++ [i]) u = header_after u (header l u) i.
Proof. unfold header. now rewrite fold_left_app. Qed.

Lemma aget_filter {A} (f : N -> bool) (m : amap A) k : aget k (filter (fun p => f (fst p)) m) = if f k then aget k m else None.
Proof.
  induction m as [|[a x] m IH]; cbn [filter fst].
  - cbn [aget]. now destruct (f k).
  - destruct (f a) eqn:F; cbn [aget]; destruct (N.eqb_spec k a) as [->|]; try exact IH; rewrite F in *; [reflexivity|exact IH].
Qed.

Section Config.
Variable cfg : cfg_route.
Hypothesis enabled : brew_sds_enabled cfg = true.

Lemma pending_command n sent hint hg c w : wk_pending (fst (worker_command cfg n sent hint hg c w)) = wk_pending w.
Proof. destruct c; reflexivity. Qed.

Lemma pending_receive data w w' e u : worker_receive cfg data w = Ok (w', e) ->
  aget u (wk_pending w') = header_after u (aget u (wk_pending w)) (WkReceive data).
Proof.
  unfold worker_receive, header_after. destruct (parse_brew_message data) as [r| |] eqn:P; cbn [bind]; try discriminate.
  intros E. injection E as E. destruct r as [m|er]; [|now injection E as <- _].
  destruct m as [m|m|m|t d|t d]; try (now injection E as <- _).
  - destruct m as [st id p]. unfold handle_call_control in E. cbn [bc_id bc_state bc_payload] in E.
    destruct (N.eqb_spec st 2) as [->|N2]; [destruct p; injection E as <- _; reflexivity|].
    destruct (N.eqb_spec st 3) as [->|N3]; cbn [orb] in E; [injection E as <- _; reflexivity|].
    destruct (N.eqb_spec st 10) as [->|N10]; [injection E as <- _; reflexivity|].
    destruct (N.eqb_spec st 11) as [->|N11].
    + destruct p; injection E as <- _; try reflexivity. cbn [wk_pending]. rewrite aget_aset. rewrite (N.eqb_sym id u). reflexivity.
    + injection E as <- _. destruct st as [|st]; [reflexivity|].
      do 4 (destruct st as [st|st|]; try reflexivity); try (exfalso; now apply N11).
  - destruct m as [ty id n d]. unfold handle_frame in E. cbn [bf_id bf_type bf_length_bits bf_data] in E. rewrite enabled in E. cbn [negb] in E.
    destruct (N.eqb_spec ty 0) as [->|N0]; [injection E as <- _; reflexivity|].
    destruct (N.eqb_spec ty 1) as [->|N1].
    + rewrite N.leb_antisym. destruct (2047 <? n); cbn [negb]; [injection E as <- _; rewrite andb_false_r; reflexivity|]. rewrite andb_true_r.
      destruct (aget id (wk_pending w)) as [[a b]|] eqn:G; injection E as <- _; cbn [wk_pending].
      * rewrite aget_adel. rewrite (N.eqb_sym id u). reflexivity.
      * destruct (N.eqb_spec id u) as [->|]; [exact G|reflexivity].
    + assert (w' = w) as -> by (destruct (ty =? 2); now injection E as <- _).
      destruct ty as [|ty]; [reflexivity|]. destruct ty as [ty|ty|]; try reflexivity. now exfalso.
Qed.

Lemma pending_is l w e : hears cfg l w e -> forall u, aget u (wk_pending w) = header l u.
Proof.
  induction 1 as [|l w e data w' e' _ IH E|l w e old _ IH|l w e n sent hint hg c _ IH]; intros u.
  - reflexivity.
  - rewrite header_snoc, <- IH. exact (pending_receive _ _ _ _ _ E).
  - rewrite header_snoc, <- IH. cbn [header_after worker_expire wk_pending].
    rewrite (aget_filter (fun k => negb (memN k old))). now destruct (memN u old).
  - rewrite header_snoc, <- IH, pending_command. reflexivity.
Qed.

Lemma frame_event l w e msg u n payload : hears cfg l w e -> Forall byte msg -> bytes msg (BmFrame (mk_brew_frame 1 u n payload)) -> n <= 2047 ->
  exists w', worker_receive cfg msg w =
    Ok (w', match header l u with Some (source, dest) => [BeSdsTransfer u source dest payload n] | None => [] end).
Proof.
  intros H F B L. unfold worker_receive. rewrite (proj2 (parse_iff msg _ F) B). cbn [bind]. unfold handle_frame. cbn [bf_type bf_id bf_length_bits bf_data N.eqb].
  rewrite enabled. cbn [negb]. rewrite (proj2 (N.ltb_ge 2047 n) L), (pending_is _ _ _ H).
  destruct (header l u) as [[a b]|]; eexists; reflexivity.
Qed.

Lemma network_to_radio l w e msg u n payload :
  hears cfg l w e -> Forall byte msg -> bytes msg (BmFrame (mk_brew_frame 1 u n payload)) -> sendable (SdsType4 n payload) = true ->
  match header l u with
  | None => exists w', worker_receive cfg msg w = Ok (w', [])
  | Some (source, dest) => fit 24 source = true ->
      exists w' ev, worker_receive cfg msg w = Ok (w', [ev]) /\
      forall lat h hint hg jc s,
        (~ is_here h dest -> be_step cfg lat (InEvent (reg_run h) hint hg jc ev) s = Ok (s, [])) /\
        (is_here h dest -> exists t, be_step cfg lat (InEvent (reg_run h) hint hg jc ev) s =
             Ok (s, [BoSds t source dest (SdsType4 n payload); BoCmd (BcSdsReport u 0)]) /\
           forall h',
             (~ is_here h' dest -> rx_sds_from_brew (reg_run h') t source dest (SdsType4 n payload) = Ok []) /\
             (is_here h' dest -> exists sdu, rx_sds_from_brew (reg_run h') t source dest (SdsType4 n payload) =
                Ok [SdToMle (forward_to_timeslot t 1) (mk_addr dest false SsiIssi) L2Acknowledged sdu] /\
                wf sdu /\ remaining sdu = d_sds_data_wire (from_to source (SdsType4 n payload))))
  end.
Proof.
  intros H F B V.
  assert (L : n <= 2047) by (cbn [sendable] in V; apply andb_true_iff in V; destruct V as [V _]; apply andb_true_iff in V; destruct V as [V _]; apply fit_lt in V; change (2 ^ N.of_nat 11) with 2048 in V; lia).
  destruct (frame_event _ _ _ _ _ _ _ H F B L) as (w' & E). destruct (header l u) as [[source dest]|]; [|now exists w'].
  intros S. exists w', (BeSdsTransfer u source dest payload n). split; [exact E|]. intros lat h hint hg jc s.
  cbn [be_step be_event]. unfold be_sds_transfer. split; intros R.
  - destruct (reg_is_registered dest (reg_run h)) eqn:G; [|reflexivity]. apply here in G. contradiction.
  - apply here in R. rewrite R. cbn [negb]. exists (forward_to_timeslot (be_dltime s) 1). split; [reflexivity|].
    intros h'. split; intros R'; now apply network_short_data.
Qed.
End Config.

(** A network that is not to be used for short data *)
Lemma disabled_frame cfg l w e msg u n payload : brew_sds_enabled cfg = false ->
  hears cfg l w e -> Forall byte msg -> bytes msg (BmFrame (mk_brew_frame 1 u n payload)) -> worker_receive cfg msg w = Ok (w, []).
Proof.
  intros D H F B. unfold worker_receive. rewrite (proj2 (parse_iff msg _ F) B). cbn [bind]. unfold handle_frame. cbn [bf_type bf_id bf_length_bits bf_data N.eqb].
  now rewrite D.
Qed.

(** ** To the network *)
Lemma be_bits n : forall v, bytes_bits (be_bytes n v) = num (n * 8) v.
Proof.
  induction n as [|n IH]; intros v; [reflexivity|]. cbn [be_bytes]. unfold bytes_bits in *. rewrite flat_map_app, IH. cbn [flat_map]. rewrite app_nil_r.
  replace (S n * 8)%nat with (n * 8 + 8)%nat by lia. unfold num. rewrite bits_of_app. f_equal.
  - f_equal. change (N.of_nat 8) with 8. now rewrite N.shiftr_div_pow2.
  - apply bits_of_ext. intros i Hi. change 256 with (2 ^ 8). apply N.mod_pow2_bits_low. lia.
Qed.
Lemma be_byte n : forall v, Forall byte (be_bytes n v).
Proof.
  induction n as [|n IH]; intros v; [constructor|]. cbn [be_bytes]. apply Forall_app. split; [apply IH|]. constructor; [|constructor].
  unfold byte. apply N.mod_lt. discriminate.
Qed.
Lemma fit_byte l : forallb (fit 8) l = true -> Forall byte l.
Proof. rewrite forallb_forall, Forall_forall. intros H x I. apply H, fit_lt in I. exact I. Qed.

(** What the network is given says what the sender wrote. *)
Lemma as_octets d : sendable d = true ->
  Forall byte (sds_to_arr d) /\ sds_length_bits d < 2 ^ 16 /\ firstn (N.to_nat (sds_length_bits d)) (bytes_bits (sds_to_arr d)) = content d /\
  N.to_nat (sds_length_bits d) = length (content d).
Proof.
  destruct d as [v|v|v|n l]; cbn [sendable sds_to_arr sds_length_bits content]; intros V.
  1-3: split; [apply be_byte|split; [reflexivity|split; [rewrite be_bits; apply firstn_all2; unfold num; rewrite bits_of_length; reflexivity|unfold num; now rewrite bits_of_length]]].
  apply andb_true_iff in V. destruct V as [V V3]. apply andb_true_iff in V. destruct V as [V1 V2]. apply fit_lt in V1. change (2 ^ N.of_nat 11) with 2048 in V1.
  apply Nat.leb_le in V2. split; [now apply fit_byte|]. split; [change (2 ^ 16) with 65536; lia|]. split; [reflexivity|]. rewrite firstn_length, bytes_bits_length. lia.
Qed.

Lemma radio_to_network cfg lat s fresh source dest d n hint hg w :
  brew_sds_enabled cfg = true -> be_connected s = true -> u128 fresh -> fit 24 source = true -> fit 24 dest = true -> sendable d = true ->
  exists cmd header frame payload k,
    be_step cfg lat (InSds fresh source dest d) s = Ok (s, [BoCmd cmd]) /\
    worker_command cfg n true hint hg cmd w = (w, [header; frame]) /\
    Forall byte header /\ bytes header (BmCallControl (mk_brew_call 11 fresh (BpShortTransfer source dest))) /\
    Forall byte frame /\ bytes frame (BmFrame (mk_brew_frame 1 fresh k payload)) /\
    firstn (N.to_nat k) (bytes_bits payload) = content d /\ N.to_nat k = length (content d).
Proof.
  intros E C U S D V. destruct (as_octets d V) as (O1 & O2 & O3 & O4). apply fit_lt in S, D. change (2 ^ N.of_nat 24) with (2 ^ 24) in S, D.
  assert (u32 source) by (unfold u32; change (2 ^ 24) with 16777216 in *; change (2 ^ 32) with 4294967296; lia).
  assert (u32 dest) by (unfold u32; change (2 ^ 24) with 16777216 in *; change (2 ^ 32) with 4294967296; lia).
  exists (BcSds fresh source dest (sds_to_arr d) (sds_length_bits d)), (build_short_transfer fresh source dest), (build_sds_frame fresh (sds_length_bits d) (sds_to_arr d)), (sds_to_arr d), (sds_length_bits d).
  split; [cbn [be_step]; unfold be_sds_send; now rewrite C|]. split; [cbn [worker_command]; now rewrite E|].
  split; [unfold build_short_transfer; bytes_tac|]. split; [now apply short_transfer_build|].
  split; [unfold build_sds_frame; bytes_tac|]. split; [now apply frame_build|]. split; assumption.
Qed.
Lemma offline cfg lat s fresh source dest d : be_connected s = false -> be_step cfg lat (InSds fresh source dest d) s = Ok (s, []).
Proof. intros C. cbn [be_step]. unfold be_sds_send. now rewrite C. Qed.
