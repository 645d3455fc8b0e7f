(** Facts about the link layer of a mobile station that listens to a base station. *)
From Coq Require Import Arith Permutation.
From Verif Require Import Base BitsLib BitBuffer BitBufferProofs TdmaTime TdmaTimeProofs MacFields MacPdus TxReceipt Llc LlcSpec LlcBits LlcProofs LlcRun LlcFacts UpPathSpec UpPathProofs DlSched UmacPrecomps UmacBs SlotSpec LmacBs BsMac AirSpec UmacMs MsSpec LmacMs MobileSpec LmacMsFacts LinkMs LinkMsSpec.
From Verif Require SlotProofs HeardSpec DlSchedSpec UlBlockPdu UlBlockFacts HeardFacts UmacMsFacts DlFacts UpPathFacts Scrambler.
Open Scope nat_scope.

(** * What the upper MAC hands up *)
Definition sane (o : ms_out) : Prop := match o with MoSdu t b _ _ _ => vtime t /\ wf b /\ ind_panics (remaining b) = false | _ => True end.
Definition message (o : ms_out) : list (option tetra_addr * list bool) := match o with MoSdu _ b a _ _ => [(Some a, remaining b)] | _ => [] end.
Lemma said_app k a b : map said (inds_on k (a ++ b)) = map said (inds_on k a) ++ map said (inds_on k b).
Proof. unfold inds_on. now rewrite filter_app, map_app. Qed.
Lemma link_all_ok : forall outs s, link_reached s -> Forall sane outs ->
  exists is s', link_all outs s = Ok (is, s') /\ link_reached s' /\ forall k, map said (inds_on k is) = flat_map carried (flat_map message (sdus_on k outs)).
Proof.
  induction outs as [|o outs IH]; intros s R F.
  { exists [], s. split; [reflexivity|]. split; [exact R|reflexivity]. }
  pose proof (Forall_inv F) as Fo. pose proof (Forall_inv_tail F) as Ft. destruct o as [t b a sc en| | | |]; try exact (IH s R Ft).
  destruct Fo as (V & W & HP). cbn [link_all]. pose proof (link_ind s t a b R V W) as H. rewrite HP in H. destruct H as (ev & s1 & E & R1). rewrite E. cbn [bind].
  pose proof (ind_delivers t a b s s1 ev W E) as D. destruct (IH s1 R1 Ft) as (is & s2 & E2 & R2 & I2). rewrite E2. cbn [bind].
  change (flat_map (fun e : lev unit => match e with LToMle i => [i] | _ => [] end) ev) with (deliveries ev). exists (deliveries ev ++ is), s2. split; [reflexivity|]. split; [exact R2|]. intros k.
  rewrite said_app, I2. unfold sdus_on. cbn [filter]. fold (sdus_on k outs). destruct (bl_accept (remaining b)) as [p|] eqn:EA.
  - destruct (is_ack p) eqn:EK.
    + rewrite D. cbn [inds_on filter map app]. destruct (on_ts k t); [|reflexivity]. cbn [flat_map message app]. unfold carried at 2. cbn [snd]. now rewrite EA, EK.
    + destruct D as (i & -> & M1 & M2 & M3 & _ & _ & M4). unfold inds_on. cbn [filter]. rewrite M2. destruct (on_ts k t); [|reflexivity]. cbn [map app flat_map message]. unfold carried at 2. cbn [snd fst]. rewrite EA, EK. cbn [app].
      f_equal. unfold said. rewrite M1, M3. f_equal. destruct (ti_sdu i) as [x|]; [|now symmetry]. exact (proj1 (proj2 M4)).
  - destruct D as (-> & _). cbn [deliveries flat_map inds_on filter map app]. destruct (on_ts k t); [|reflexivity]. cbn [flat_map message app]. unfold carried at 2. cbn [snd]. now rewrite EA.
Qed.
Lemma handed_carried out got : handed out got -> flat_map carried (flat_map message out) = flat_map carried (flat_map HeardSpec.payload got).
Proof.
  induction 1 as [|o out m l G H IH|out h l H IH]; [reflexivity| |exact IH]. destruct G as (t & sdu & a & scr & -> & W & R & A). cbn [flat_map message app]. rewrite R, IH. unfold HeardSpec.payload at 2.
  destruct m as (h & d). cbn [fst snd] in *. rewrite A. destruct d as [|x d]; reflexivity.
Qed.
Lemma handed_gives out got : handed out got -> forall o, In o out -> exists m, In m got /\ gives o m.
Proof.
  induction 1 as [|o out m l G H IH|out h l H IH]; intros x IN; [destruct IN| |destruct (IH x IN) as (m & M & GX); exists m; split; [now right|exact GX]].
  destruct IN as [<-|IN]; [exists m; split; [now left|exact G]|]. destruct (IH x IN) as (m' & M & GX). exists m'. split; [now right|exact GX].
Qed.
Lemma handed_sane out (got : nat -> list (mac_resource * list bool)) : Forall timed out -> (forall k, 1 <= k <= 4 -> handed (sdus_on k out) (got k) /\ Forall harmless (flat_map HeardSpec.payload (got k))) -> Forall sane out.
Proof.
  intros T H. rewrite Forall_forall in *. intros o IN. specialize (T o IN). destruct o as [t b a sc en| | | |]; try exact Logic.I. cbn [timed sane] in *. split; [exact T|].
  pose proof (UlBlockPdu.ts_of_range t T) as K. destruct (H (ts_of t) ltac:(lia)) as (HD & HA).
  destruct (handed_gives _ _ HD (MoSdu t b a sc en)) as ((h & d) & M & t' & sdu & a' & scr & EO & W & R & _).
  { unfold sdus_on. apply filter_In. split; [exact IN|]. unfold on_ts. apply Nat.eqb_refl. }
  injection EO as <- <- <- <- _. split; [exact W|]. rewrite R. cbn [snd] in *. destruct d as [|x d]; [reflexivity|]. rewrite Forall_forall in HA. apply (HA (mr_addr h, x :: d)). apply in_flat_map. exists (h, x :: d). split; [exact M|now left].
Qed.

(** * From the base station to the user of the link layer *)
Lemma user_gets_at c s log t mevs lm um before out0 ll : cell_ok c = true -> (forall k, 1 <= k <= 4 -> HeardSpec.bs_history c k s log) ->
  (forall k, 1 <= k <= 4 -> Forall UmacMsFacts.short (HeardSpec.sends k (fun _ => idle_ts) (events_of log)) /\ Forall harmless (HeardSpec.sends k (fun _ => idle_ts) (events_of log))) ->
  Forall first_free (events_of log) -> starts_at log t -> overhears log mevs -> lms_code lm = Some (SlotProofs.code_of c) -> lms_time lm = Some t -> ms_run before ums_new = Ok (um, out0) -> link_reached ll ->
  let slots := fun k => flat_map (HeardFacts.slot_air k) (AirSpec.sent log) in (forall k, 1 <= k <= 4 -> HeardSpec.receives c k log (slots k)) /\
  ((forall k, 1 <= k <= 4 -> DlSchedSpec.hear (slots k) <> DlSchedSpec.Mixed /\ Forall uncut (slots k)) ->
   exists m out is ll', mob_run mevs (mk_mobile lm um) = Ok (m, out) /\ link_all out ll = Ok (is, ll') /\ link_reached ll' /\ forall k, 1 <= k <= 4 -> exists got part, DlSchedSpec.hear (slots k) = DlSchedSpec.Clear got part /\
     map said (inds_on k is) = flat_map carried (flat_map HeardSpec.payload got) /\
     Permutation (flat_map carried (HeardSpec.sends k (fun _ => idle_ts) (events_of log))) (map said (inds_on k is) ++ flat_map carried (flat_map HeardSpec.payload (HeardSpec.queued k s part)))).
Proof.
  intros CO HS SH AP ST OV LC LT RB LR slots. destruct (gets c s log t mevs lm um before out0 CO HS (fun k K => proj1 (SH k K)) AP ST OV LC LT RB) as (RC & GO). split; [exact RC|]. intros NM.
  destruct (GO NM) as (m & out & R & TI & H).
  pose (got := fun k => match DlSchedSpec.hear (slots k) with DlSchedSpec.Clear g _ => g | _ => [] end).
  assert (SA : Forall sane out).
  { apply (handed_sane out got TI). intros k K. destruct (H k K) as (g & p & HC & P & HD). unfold got, slots. rewrite HC. split; [exact HD|].
    apply Permutation_sym in P. pose proof (Permutation_Forall (Permutation_sym P) (proj2 (SH k K))) as F. apply Forall_app in F. exact (proj1 F). }
  destruct (link_all_ok out ll LR SA) as (is & ll' & EL & LR' & SD). exists m, out, is, ll'. split; [exact R|]. split; [exact EL|]. split; [exact LR'|].
  intros k K. destruct (H k K) as (g & p & HC & P & HD). exists g, p. split; [exact HC|]. assert (E : map said (inds_on k is) = flat_map carried (flat_map HeardSpec.payload g)) by (rewrite SD; now apply handed_carried).
  split; [exact E|]. rewrite E, <- flat_map_app. now apply Permutation_flat_map.
Qed.
Lemma user_gets c s log t mevs lm um before out0 ll : cell_ok c = true -> (forall k, 1 <= k <= 4 -> HeardSpec.bs_history c k s log) ->
  (forall k, 1 <= k <= 4 -> Forall UmacMsFacts.short (HeardSpec.sends k (fun _ => idle_ts) (events_of log)) /\ Forall harmless (HeardSpec.sends k (fun _ => idle_ts) (events_of log))) ->
  Forall first_free (events_of log) -> starts_at log t -> overhears log mevs -> lms_code lm = Some (SlotProofs.code_of c) -> lms_time lm = Some t -> ms_run before ums_new = Ok (um, out0) -> link_reached ll ->
  exists slots, (forall k, 1 <= k <= 4 -> HeardSpec.receives c k log (slots k)) /\
  ((forall k, 1 <= k <= 4 -> DlSchedSpec.hear (slots k) <> DlSchedSpec.Mixed /\ Forall uncut (slots k)) ->
   exists m out is ll', mob_run mevs (mk_mobile lm um) = Ok (m, out) /\ link_all out ll = Ok (is, ll') /\ link_reached ll' /\ forall k, 1 <= k <= 4 -> exists got part, DlSchedSpec.hear (slots k) = DlSchedSpec.Clear got part /\
     map said (inds_on k is) = flat_map carried (flat_map HeardSpec.payload got) /\
     Permutation (flat_map carried (HeardSpec.sends k (fun _ => idle_ts) (events_of log))) (map said (inds_on k is) ++ flat_map carried (flat_map HeardSpec.payload (HeardSpec.queued k s part)))).
Proof. intros CO HS SH AP ST OV LC LT RB LR. eexists. exact (user_gets_at c s log t mevs lm um before out0 ll CO HS SH AP ST OV LC LT RB LR). Qed.

(** * Between two link layers *)
Lemma unit_written (q : tla_req unit) s s' : wf (lq_sdu q) -> rx_tlunitdata_req q s = Ok s' ->
  exists m, ll_udata s' = ll_udata s ++ [m] /\ tq_addr m = lq_addr q /\ forall a, harmless (a, req_bits m) /\ carried (a, req_bits m) = [(a, true, remaining (lq_sdu q))].
Proof.
  intros W E. unfold rx_tlunitdata_req in E. destruct (llc_pdu_spec _ _ (lq_sdu q) (bu_bits false) W) as (b & Eb & _ & Vb). rewrite Eb in E. cbn [bind] in E. injection E as <-.
  eexists. split; [reflexivity|]. split; [reflexivity|]. intros a. unfold harmless, carried, req_bits. cbn [tq_pdu snd fst]. rewrite Vb. split; reflexivity.
Qed.
Lemma data_written l log (s : llc unit) id rep q ev s' : llc_run l llc_new = Ok (log, s) -> log_ok [] [] log -> wf (lq_sdu q) -> rx_tldata_req id rep q s = Ok (ev, s') ->
  exists m, ev = [LQueued id m] /\ tq_addr m = lq_addr q /\
    (lq_fcs q = false -> forall a, harmless (a, req_bits m) /\ carried (a, req_bits m) = [(a, false, remaining (lq_sdu q))]) /\
    (lq_fcs q = true -> forall a, (length (remaining (lq_sdu q)) = 32 -> ~ harmless (a, req_bits m)) /\ (fcs_fine true (remaining (lq_sdu q)) = false -> carried (a, req_bits m) = [])).
Proof.
  intros R O W E. destruct (run_all l [] [] llc_new log s good_new R O) as (G & _).
  destruct (data_req_eq _ _ id rep q s G W) as [St|[Ty|(m & acks & E' & A1 & _ & _ & _ & _ & _ & _ & A8)]].
  { unfold rx_tldata_req in E. rewrite St in E. discriminate. }
  { unfold rx_tldata_req in E. rewrite Ty in E. destruct (lq_steal q); discriminate. }
  rewrite E' in E. injection E as <- _. exists m. split; [reflexivity|]. split; [exact A1|]. cbv zeta in A8. clear E'.
  assert (X : exists p, bl_parse (req_bits m) = Some p /\ hdr_fcs p = lq_fcs q /\ LlcSpec.sdu_of p = remaining (lq_sdu q) /\ is_ack p = false /\ is_udata p = false).
  { destruct A8 as [(nr & A & _)|(A & _)]; eexists; split; try exact A; repeat split. }
  clear A8. destruct X as (p & BP & F & SD & K & U).
  assert (IP : ind_panics (req_bits m) = (lq_fcs q && (length (remaining (lq_sdu q)) =? 32))%bool).
  { unfold ind_panics. rewrite BP, F, SD. unfold bl_parse in BP. destruct (req_bits m) as [|[|] [|[|] [|x [|y r]]]]; try discriminate BP; reflexivity. }
  assert (BA : bl_accept (req_bits m) = if fcs_fine (lq_fcs q) (remaining (lq_sdu q)) then Some p else None).
  { unfold bl_accept. rewrite BP. destruct p; cbn [hdr_fcs LlcSpec.sdu_of] in F, SD; subst; reflexivity. }
  unfold harmless, carried. cbn [fst snd]. rewrite IP, BA. split; intros F0; rewrite F0 in *.
  - intros a. split; [reflexivity|]. cbn [fcs_fine negb orb]. now rewrite K, U, SD.
  - intros a. split; [intros L; rewrite L; discriminate|]. intros ->. reflexivity.
Qed.
Lemma plain_written l log (s : llc unit) id rep q ev s' : llc_run l llc_new = Ok (log, s) -> log_ok [] [] log -> wf (lq_sdu q) -> lq_fcs q = false -> rx_tldata_req id rep q s = Ok (ev, s') ->
  exists m, ev = [LQueued id m] /\ tq_addr m = lq_addr q /\ forall a, harmless (a, req_bits m) /\ carried (a, req_bits m) = [(a, false, remaining (lq_sdu q))].
Proof. intros R O W F E. destruct (data_written l log s id rep q ev s' R O W E) as (m & M1 & M2 & M3 & _). exists m. split; [exact M1|]. split; [exact M2|exact (M3 F)]. Qed.
Lemma checked_written l log (s : llc unit) id rep q ev s' : llc_run l llc_new = Ok (log, s) -> log_ok [] [] log -> wf (lq_sdu q) -> lq_fcs q = true -> rx_tldata_req id rep q s = Ok (ev, s') ->
  exists m, ev = [LQueued id m] /\ forall a, (length (remaining (lq_sdu q)) = 32 -> ~ harmless (a, req_bits m)) /\ (fcs_fine true (remaining (lq_sdu q)) = false -> carried (a, req_bits m) = []).
Proof. intros R O W F E. destruct (data_written l log s id rep q ev s' R O W E) as (m & M1 & _ & _ & M4). exists m. split; [exact M1|exact (M4 F)]. Qed.

(** * Example *)
Definition ex_said : list (option tetra_addr * bool * list bool) :=
  [(Some (MacSpec.on_air HeardFacts.ex_group), false, skipn 5 (UlBlockFacts.ex_text 29)); (Some (MacSpec.on_air HeardFacts.ex_radio), false, skipn 5 (UlBlockFacts.ex_text 157))].
Lemma ex_user : exists s log mevs m out slots is ll', (forall k, 1 <= k <= 4 -> HeardSpec.bs_history DlFacts.ex_cell k s log) /\
  (forall k, 1 <= k <= 4 -> Forall UmacMsFacts.short (HeardSpec.sends k (fun _ => idle_ts) (events_of log)) /\ Forall harmless (HeardSpec.sends k (fun _ => idle_ts) (events_of log))) /\
  Forall first_free (events_of log) /\ starts_at log UmacMsFacts.ex_time /\ overhears log mevs /\ length mevs = 16 /\
  (forall k, 1 <= k <= 4 -> HeardSpec.receives DlFacts.ex_cell k log (slots k) /\ DlSchedSpec.hear (slots k) <> DlSchedSpec.Mixed /\ Forall uncut (slots k)) /\
  mob_run mevs (mk_mobile (mk_lms (Some (SlotProofs.code_of DlFacts.ex_cell)) (Some UmacMsFacts.ex_time) false) ums_new) = Ok (m, out) /\ link_all out llc_new = Ok (is, ll') /\
  flat_map carried (HeardSpec.sends 1 (fun _ => idle_ts) (events_of log)) = ex_said /\ map said (inds_on 1 is) = ex_said.
Proof.
  destruct ex_mobile_at as (s & log & mevs & m & out & slots & got & H1 & H2 & H3 & H4 & H5 & H6 & H7 & H8 & H9 & H10 & H11 & H12 & H13 & ES & EN).
  assert (HA : forall k, 1 <= k <= 4 -> Forall UmacMsFacts.short (HeardSpec.sends k (fun _ => idle_ts) (events_of log)) /\ Forall harmless (HeardSpec.sends k (fun _ => idle_ts) (events_of log))).
  { intros k K. split; [exact (H3 k K)|]. destruct (Nat.eq_dec k 1) as [->|NK]; [rewrite H2; repeat constructor|]. rewrite (EN k NK). constructor. }
  destruct (user_gets_at DlFacts.ex_cell s log UmacMsFacts.ex_time mevs (mk_lms (Some (SlotProofs.code_of DlFacts.ex_cell)) (Some UmacMsFacts.ex_time) false) ums_new [] [] llc_new eq_refl H1 HA H4 H5 H7 eq_refl eq_refl eq_refl UpPathFacts.link_new) as (_ & GO).
  subst slots. destruct GO as (m' & out' & is & ll' & R & EL & _ & H); [intros k K; exact (proj2 (H9 k K))|].
  rewrite H10 in R. injection R as <- <-. destruct (H 1 ltac:(lia)) as (g & p & HC & E & _). rewrite H11 in HC. injection HC as <- <-. rewrite H12 in E.
  exists s, log, mevs, m, out, (fun k => flat_map (HeardFacts.slot_air k) (AirSpec.sent log)), is, ll'. split; [exact H1|]. split; [exact HA|]. split; [exact H4|]. split; [exact H5|]. split; [exact H7|]. split; [exact H8|].
  split; [exact H9|]. split; [exact H10|]. split; [exact EL|]. split; [rewrite H2; vm_compute; reflexivity|]. rewrite E. vm_compute. reflexivity.
Qed.
Definition ex_req (fcs : bool) (n : nat) : tla_req unit := mk_tlareq (mk_time 3 1 1 0) (UlBlockFacts.ex_bits (UlBlockFacts.ex_text n)) HeardFacts.ex_radio false fcs None None None.
Lemma ex_written : exists log s, llc_run [LInd (mk_time 3 1 1 0) HeardFacts.ex_radio (Some (UlBlockFacts.ex_bits ([false; false; false; true; true] ++ UlBlockFacts.ex_text 9)))] llc_new = Ok (log, s) /\ log_ok (P := unit) [] [] log /\
  Forall (fun q => wf (lq_sdu q)) [ex_req false 40; ex_req true 40; ex_req true 32] /\ fcs_fine true (UlBlockFacts.ex_text 40) = false /\
  match rx_tldata_req 7 tx_new (ex_req false 40) s with Ok ([LQueued _ m], _) => bl_parse (req_bits m) = Some (AData false true false (UlBlockFacts.ex_text 40)) | _ => False end /\
  match rx_tldata_req 7 tx_new (ex_req true 40) s, rx_tldata_req 7 tx_new (ex_req true 32) s with Ok ([LQueued _ m], _), Ok ([LQueued _ m'], _) => carried (None, req_bits m) = [] /\ ind_panics (req_bits m') = true | _, _ => False end.
Proof.
  do 2 eexists. split; [vm_compute; reflexivity|]. split; [|split; [|split; [vm_compute; reflexivity|split; [vm_compute; reflexivity|vm_compute; split; reflexivity]]]].
  - cbn [log_ok item_ok]. split; [|repeat split]. split; [apply vtime_valid; unfold vtime; cbn; lia|exact (proj1 (UlBlockFacts.ex_bits_ok ([false; false; false; true; true] ++ UlBlockFacts.ex_text 9)))].
  - constructor; [apply UlBlockFacts.ex_bits_ok|]. constructor; [apply UlBlockFacts.ex_bits_ok|]. constructor; [apply UlBlockFacts.ex_bits_ok|constructor].
Qed.
