(** Cases for the theorems of [Props_Layer3]. *)
From Verif Require Import Base BitsLib BitBuffer BitBufferProofs BitBufferOps BitBufferFacts Codec TypedFields AMap TdmaTime TdmaTimeProofs MacFields PduSpec CmceFields CmcePdus CmceSpec
  MmFields MmPdus MmSpec BrewRoute Registry CallControl CcFacts Mobility MobilityFacts Sds RegistrySpec SdsFacts Layer3Spec Layer3Parse CcSafeSpec.
Open Scope nat_scope.

(** ** The elements of a concrete message, computed *)
Fixpoint elements (fuel : nat) (c : list bool) : list (N * N * list bool) :=
  match fuel with
  | 0 => []
  | S k => (field 1 4 c, field 5 11 c, skipn 16 c) :: elements k (skipn (16 + N.to_nat (field 5 11 c)) c)
  end.
Lemma header_fields id len rest : (id < 16)%N -> (len < 2048)%N -> let c := true :: bits_of 4 id ++ bits_of 11 len ++ rest in
  field 1 4 c = id /\ field 5 11 c = len /\ skipn 16 c = rest.
Proof.
  intros I L c. split; [|split; [|apply skip16]]; unfold field, c.
  - change (skipn 1 (true :: bits_of 4 id ++ bits_of 11 len ++ rest)) with (bits_of 4 id ++ bits_of 11 len ++ rest).
    rewrite firstn_app, bits_of_length, Nat.sub_diag, firstn_O, app_nil_r, firstn_all2 by (rewrite bits_of_length; lia). now apply bits_val_of.
  - change (skipn 5 (true :: bits_of 4 id ++ bits_of 11 len ++ rest)) with (skipn 4 (bits_of 4 id ++ bits_of 11 len ++ rest)).
    rewrite skipn_app, bits_of_length, Nat.sub_diag, skipn_O, skipn_all2, app_nil_l by (rewrite bits_of_length; lia).
    rewrite firstn_app, bits_of_length, Nat.sub_diag, firstn_O, app_nil_r, firstn_all2 by (rewrite bits_of_length; lia). now apply bits_val_of.
Qed.
Lemma elements_all c id len rest : element_in c id len rest -> forall fuel, length c <= fuel -> In (id, len, rest) (elements fuel c).
Proof.
  induction 1 as [id len rest I L|i n r id len rest I L B H IH]; intros fuel F; (destruct fuel as [|fuel]; [cbn in F; lia|]); cbn [elements].
  - destruct (header_fields id len rest I L) as (-> & -> & ->). now left.
  - destruct (header_fields i n r I L) as (-> & -> & _). right. rewrite <- skipn_skipn', skip16. apply IH. rewrite skipn_length.
    cbn [length] in F. rewrite !app_length, !bits_of_length in F. lia.
Qed.
Definition none_of (P : N -> N -> list bool -> bool) (c : list bool) : bool := forallb (fun '(id, len, rest) => negb (P id len rest)) (elements (length c) c).
Lemma none_spec P (Q : N -> N -> list bool -> Prop) c : (forall id len rest, Q id len rest -> P id len rest = true) -> none_of P c = true -> ~ some_element Q c.
Proof.
  intros H N (id & len & rest & E & B). pose proof (elements_all _ _ _ _ E _ (le_n _)) as X. unfold none_of in N. rewrite forallb_forall in N.
  specialize (N _ X). cbn beta iota in N. rewrite (H _ _ _ B) in N. discriminate N.
Qed.
Definition overlongb (id len : N) (rest : list bool) : bool := (64 <=? length rest) && (N.of_nat (length rest) <? len)%N.
Lemma overlongb_ok id len rest : overlong id len rest -> overlongb id len rest = true.
Proof. intros [A B]. unfold overlongb. apply Nat.leb_le in A. rewrite A. apply N.ltb_lt. lia. Qed.
Definition stuntedb (id len : N) (rest : list bool) : bool := (id =? 8)%N && (len <? 6)%N.
Lemma stuntedb_ok id len rest : stunted id len rest -> stuntedb id len rest = true.
Proof. intros (-> & B & _). unfold stuntedb. cbn [N.eqb Pos.eqb andb]. now apply N.ltb_lt. Qed.
Definition insideb (id len : N) (rest : list bool) : bool :=
  (id =? 3)%N && match rest with _ :: _ :: true :: c => (field 1 4 c =? 8)%N && (field 5 11 c <? 6)%N | _ => false end.
Lemma insideb_ok id len rest : stunted_inside id len rest -> insideb id len rest = true.
Proof.
  intros (-> & a & b & n & r & -> & (_ & B & _)). unfold insideb. cbn [N.eqb Pos.eqb andb].
  destruct (header_fields 8 n r ltac:(lia) ltac:(lia)) as (-> & -> & _). cbn [N.eqb Pos.eqb andb]. now apply N.ltb_lt.
Qed.

Definition calm_cmce (l : list bool) : bool :=
  negb ((field 0 5 l =? 8)%N && (field (11 + party (field 9 2 l)) 16 l =? 31743)%N) &&
  match cmce_head l with Some h => negb (bit h l) || none_of overlongb (skipn (h + 1) l) | None => true end.
Lemma calm_cmce_ok l : calm_cmce l = true -> ~ hostile_cmce l.
Proof.
  unfold calm_cmce. rewrite andb_true_iff, negb_true_iff, andb_false_iff. intros [A B] [[H1 H2]|(h & H1 & H2 & H3)].
  - rewrite H1, H2 in A. destruct A as [A|A]; discriminate A.
  - rewrite H1, H2 in B. exact (none_spec _ _ _ overlongb_ok B H3).
Qed.
Definition calm_mm (l : list bool) : bool :=
  let ty := field 0 4 l in
  let h := if bit 8 l then 19 else 9 in
  negb ((ty =? 1)%N && bit 4 l && negb (none_of overlongb (type2 24 (skipn 5 l)))) &&
  negb ((ty =? 2)%N && bit h l && negb (none_of (fun id len rest => overlongb id len rest || insideb id len rest)
     (type2 24 (type2 24 (type2 15 (type2 3 (type2 24 (skipn (h + 1) l)))))))) &&
  negb ((ty =? 7)%N && bit 6 l && negb (none_of (fun id len rest => overlongb id len rest || stuntedb id len rest) (skipn 7 l))).
Lemma calm_mm_ok l : calm_mm l = true -> ~ hostile_mm l.
Proof.
  unfold calm_mm. cbv zeta. rewrite !andb_true_iff, !negb_true_iff. intros [[A B] C] [(H1 & H2 & H3)|[(H1 & H2 & H3)|(H1 & H2 & H3)]].
  - rewrite H1, H2 in A. cbn [N.eqb Pos.eqb andb] in A. apply negb_false_iff in A. exact (none_spec _ _ _ overlongb_ok A H3).
  - cbv zeta in H2, H3. rewrite H1, H2 in B. cbn [N.eqb Pos.eqb andb] in B. apply negb_false_iff in B. refine (none_spec _ _ _ _ B H3).
    intros id len rest [X|X]; [now rewrite (overlongb_ok _ _ _ X)|rewrite (insideb_ok _ _ _ X); apply orb_true_r].
  - rewrite H1, H2 in C. cbn [N.eqb Pos.eqb andb] in C. apply negb_false_iff in C. refine (none_spec _ _ _ _ C H3).
    intros id len rest [X|X]; [now rewrite (overlongb_ok _ _ _ X)|rewrite (stuntedb_ok _ _ _ X); apply orb_true_r].
Qed.

(** ** Harmless messages *)
Lemma bits_buffer w : wf (match bb_from_bitstr w with Ok b => b | _ => bb_new 0 end) /\ remaining (match bb_from_bitstr w with Ok b => b | _ => bb_new 0 end) = w.
Proof. destruct (from_bitstr_spec w) as (b & -> & W & P & _ & X). split; [exact W|]. now rewrite (BitBufferFacts.remaining_at_start b P). Qed.

Lemma mobility_met : forall w, In w [u_lu_demand_wire (locate 0 0 [attach 100; attach 200]); u_attach_detach_wire (ask false [detach 200; attach 400]); u_itsi_detach_wire (mk_u_itsi_detach None None)] ->
  wf (di_sdu (say 1 w)) /\ (ad_ssi (di_addr (say 1 w)) < 2 ^ 24)%N /\ ~ hostile_mm (remaining (di_sdu (say 1 w))).
Proof.
  intros w H. unfold say. cbn [di_sdu di_addr ad_ssi]. destruct (bits_buffer w) as [W ->]. split; [exact W|]. split; [reflexivity|].
  apply calm_mm_ok. clear W. cbn [In] in H. repeat (destruct H as [<-|H]; [vm_compute; reflexivity|]). destruct H.
Qed.
Lemma short_data_met : forall w, In w [u_sds_data_wire (send_to 2); u_status_wire (report_to 2 (PcsNetworkUser 40000))] ->
  wf (mi_sdu (speak 1 w)) /\ (ad_ssi (mi_addr (speak 1 w)) < 2 ^ 24)%N /\ ~ hostile_cmce (remaining (mi_sdu (speak 1 w))).
Proof.
  intros w H. unfold speak. cbn [mi_sdu mi_addr ad_ssi]. destruct (bits_buffer w) as [W ->]. split; [exact W|]. split; [reflexivity|].
  apply calm_cmce_ok. clear W. cbn [In] in H. repeat (destruct H as [<-|H]; [vm_compute; reflexivity|]). destruct H.
Qed.

Lemma up_acceptable cfg issi w : (issi < 2 ^ 24)%N -> calm_cmce w = true -> acceptable cfg (up issi w).
Proof.
  intros A C. unfold up. cbn [acceptable mi_sdu mi_addr ad_ssi]. destruct (bits_buffer w) as [W ->]. split; [exact W|]. split; [exact A|]. now apply calm_cmce_ok.
Qed.
(** The events of [CcFacts.ex_events]: a local and a network call, a change of speaker, a tick *)
Lemma ex_acceptable : Forall (acceptable ex_cfg) ex_events.
Proof.
  unfold ex_events. constructor; [exact Logic.I|]. constructor; [exact Logic.I|]. constructor; [apply up_acceptable; vm_compute; reflexivity|].
  constructor; [split; vm_compute; reflexivity|]. constructor; [cbn [acceptable]; unfold vtime; cbn [tm_t tm_f tm_m tm_h]; lia|].
  constructor; [apply up_acceptable; vm_compute; reflexivity|constructor].
Qed.
Fixpoint cc_run (cfg : cfg_route) (evs : list cc_event) (s : cc) : option cc :=
  match evs with
  | [] => Some s
  | e :: t => match cc_step cfg e s with Ok (s', _) => cc_run cfg t s' | _ => None end
  end.
Lemma run_serves cfg evs : forall s s', serves cfg s -> Forall (acceptable cfg) evs -> cc_run cfg evs s = Some s' -> serves cfg s'.
Proof.
  induction evs as [|e t IH]; intros s s' H F E; cbn [cc_run] in E; [now injection E as <-|].
  destruct (cc_step cfg e s) as [[s1 q]| |] eqn:E1; [|discriminate E..]. eapply IH; [|exact (Forall_inv_tail F)|exact E].
  exact (serves_step cfg s e s1 q H (Forall_inv F) E1).
Qed.
Lemma call_control_met : exists s, serves ex_cfg s /\ length (cc_active s) = 2.
Proof.
  destruct (cc_run ex_cfg ex_events cc_new) as [s|] eqn:E; [|vm_compute in E; discriminate E].
  exists s. split; [exact (run_serves _ _ _ _ (serves_new _) ex_acceptable E)|]. vm_compute in E. injection E as <-. reflexivity.
Qed.

(** ** Hostile messages *)
(** U-RELEASE of call 4, a facility element that announces 100 bits of which 70 are there *)
Definition long_release : list bool := num 5 6 ++ num 14 4 ++ num 5 1 ++ [true; true] ++ num 4 3 ++ num 11 100 ++ repeat false 70.
Lemma release_crash : exists i, remaining (mi_sdu i) = long_release /\ wf (mi_sdu i) /\ forall cfg s, cc_step cfg (EvUplink i) s = Panic.
Proof.
  exists (speak 1 long_release). split; [vm_compute; reflexivity|]. split; [exact (proj1 (bits_buffer long_release))|]. intros cfg s.
  assert (P : peek_bits (mi_sdu (speak 1 long_release)) 5 = Ok (Some 6%N)) by (vm_compute; reflexivity).
  assert (R : u_release_from_bitbuf (mi_sdu (speak 1 long_release)) = Panic) by (vm_compute; reflexivity).
  generalize dependent (speak 1 long_release). intros i P R. cbn [cc_step]. unfold cc_rx_ind, route_xx_deliver. rewrite P. cbn [bind].
  change (AMapOrder.memN 6 [Ul_UAlert; Ul_UConnect; Ul_UDisconnect; Ul_UInfo; Ul_URelease; Ul_USetup; Ul_UTxCeased; Ul_UTxDemand; Ul_UCallRestore]) with true. cbv iota.
  change (negb (ul_type_known 6)) with false. change (6 =? Ul_USetup)%N with false. change (6 =? Ul_UTxCeased)%N with false. change (6 =? Ul_UTxDemand)%N with false.
  change (6 =? Ul_URelease)%N with true. cbv iota. unfold parsed. now rewrite R.
Qed.
(** U-ATTACH/DETACH-GROUP-IDENTITY with a list of groups that announces five bits *)
Definition short_list : list bool := num 4 7 ++ [false; true; true; true] ++ num 4 8 ++ num 11 5 ++ num 6 0 ++ [false].
Lemma attach_crash : exists i, remaining (di_sdu i) = short_list /\ wf (di_sdu i) /\ forall cfg hint s, mm_rx cfg hint i s = Panic.
Proof.
  exists (say 1 short_list). split; [vm_compute; reflexivity|]. split; [exact (proj1 (bits_buffer short_list))|]. intros cfg hint s.
  assert (P : peek_bits (di_sdu (say 1 short_list)) 4 = Ok (Some 7%N)) by (vm_compute; reflexivity).
  assert (R : u_attach_detach_from_bitbuf (di_sdu (say 1 short_list)) = Panic) by (vm_compute; reflexivity).
  generalize dependent (say 1 short_list). intros i P R. unfold mm_rx. rewrite P. cbn [bind].
  change (7 =? MmUl_UItsiDetach)%N with false. change (7 =? MmUl_ULocationUpdateDemand)%N with false. change (7 =? MmUl_UMmStatus)%N with false.
  change (7 =? MmUl_UAttachDetachGroupIdentity)%N with true. cbv iota. unfold mm_parsed. now rewrite R.
Qed.
(** A call of the network whose speaker has a 25-bit number *)
Lemma speaker_crash : exists s, serves ex_cfg s /\ cc_step ex_cfg (EvControl [] (CtlNetworkCallStart 9 (2 ^ 24) 200 0)) s = Panic.
Proof.
  destruct (cc_run ex_cfg [EvSubscriber [] [] 2 [200%N] SubAffiliate] cc_new) as [s|] eqn:E; [|vm_compute in E; discriminate E].
  exists s. split; [refine (run_serves _ _ _ _ (serves_new _) _ E); now constructor|]. vm_compute in E. injection E as <-. vm_compute. reflexivity.
Qed.
