(** The downlink scheduler: final lemmas, examples and counterexamples. *)
From Coq Require Import Arith Permutation.
From Verif Require Import Base BitsLib BitBuffer BitBufferProofs BitBufferOps Codec MacFields MacPdus MacBroadcast MleBroadcast Layout MacSpec BsFrag FragSpec TxReceipt TdmaTime
  UmacCircuits UlSched DlSched DlSchedSpec DlChunk DlBuild DlNotes DlSlot DlFinal DlHistory DlRun UmacPrecomps.
Open Scope nat_scope.

Lemma sim_waits l ws : Forall2 sim l ws -> Forall2 waits_for (entries l) ws.
Proof.
  induction 1 as [|e w l ws S F IH]; [constructor|]. destruct e as [|a|a g|p sdu rep|f|b rep]; try contradiction. destruct S as (A & B & C).
  change (entries (DlResource p sdu rep :: l)) with (mk_en false p (remaining sdu) rep :: entries l). constructor; [|assumption].
  unfold waits_for. cbn [en_going en_hdr en_bits en_rep]. auto.
Qed.
Lemma waits_full part es ws : Forall2 waits_for es ws -> map (full part) es = map message ws.
Proof.
  induction 1 as [|e w l ws (A & B & C & _) F IH]; [reflexivity|]. cbn [map]. rewrite IH. f_equal. unfold full, message. rewrite A, B, C. reflexivity.
Qed.
Lemma served_load e i es m : served e i es m -> loads es + length i <= load e.
Proof.
  intros S. unfold loads, load. inversion S; subst; cbn [map list_sum fold_right length en_bits en_going]; rewrite ?app_length; unfold load; cbn [en_bits en_going]; try lia.
  destruct d; [congruence|]. cbn [length]. lia.
Qed.
Lemma served_loads es is es' m : served_all es is es' m -> loads es' + length is <= loads es.
Proof.
  induction 1 as [|e es is i es' e' m m' S _ IH]; [cbn; lia|]. pose proof (served_load _ _ _ _ S). unfold loads in *. rewrite map_app, app_length, list_sum_app. cbn [map]. change (list_sum (load e :: map load es)) with (load e + list_sum (map load es)). lia.
Qed.
Lemma line_nil q1 : forallb busy q1 = true -> line q1 = [] -> q1 = [].
Proof.
  intros B E. destruct q1 as [|e q]; [reflexivity|]. exfalso. cbn [forallb] in B. apply andb_prop in B. destruct B as (B & _). unfold busy in B. unfold line in E.
  apply app_eq_nil in E. destruct E as (E1 & E2). cbn [filter] in E1, E2. destruct (is_frag e); [discriminate|]. destruct (is_resource e); [discriminate|]. discriminate.
Qed.
Lemma entries_app' a b : entries (a ++ b) = entries a ++ entries b.
Proof. unfold entries. now rewrite flat_map_app. Qed.

Lemma C17_history_proof k t code p evs log s :
  1 <= k <= 4 -> Forall (fair k) evs -> dl_run (DvStart t :: evs) (dls_new code p) = Ok (log, s) ->
  exists q, get_q k s = Ok q /\
    Forall2 waits_for (entries (filter is_resource q)) (dk_fresh (asked k log)) /\
    flat_map notes_of q = dk_notes (asked k log) /\
    match hear (air k log) with
    | Garbled => False
    | Mixed => True
    | Clear got part =>
        in_step part (entries (filter is_frag q)) /\
        Permutation (map message (dk_firm (asked k log))) (got ++ map (full part) (entries (filter is_frag q)))
    end.
Proof.
  intros K FE E. destruct (history_inv k t code p evs log s K FE E) as (q & (_ & _ & EQ & _ & SM & NT) & FN & _).
  exists q. split; [assumption|]. split; [now apply sim_waits|]. split; [assumption|]. exact FN.
Qed.
Lemma C17_order_proof k t code p evs log s h :
  1 <= k <= 4 -> Forall (fair k) evs -> dl_run (DvStart t :: evs) (dls_new code p) = Ok (log, s) ->
  32 <= h -> Forall (fun w => width (mr_layout (w_hdr w)) = h) (dk_firm (asked k log)) ->
  exists q got part, get_q k s = Ok q /\ hear (air k log) = Clear got part /\
    map message (dk_firm (asked k log)) = got ++ map (full part) (entries (filter is_frag q)).
Proof.
  intros K FE E H32 HW. destruct (history_inv k t code p evs log s K FE E) as (q & (_ & _ & EQ & _ & SM & NT) & _ & OR).
  destruct (OR h H32 HW) as (got & part & EH & _ & EM). exists q, got, part. auto.
Qed.

Lemma C17_slot_proof k t code p evs log s slot m s' :
  1 <= k <= 4 -> Forall (fair k) evs -> dl_run (DvStart t :: evs) (dls_new code p) = Ok (log, s) ->
  dl_step DvTick s = Ok (Some slot, m, s') -> for_ts k (sl_ts slot) = true ->
  exists q q', get_q k s = Ok q /\ get_q k s' = Ok q' /\
    if is_traffic slot then q' = q
    else exists fresh,
      Forall2 waits_for fresh (fold_left (fun l n => attach n l) (dk_notes (asked k log)) (dk_fresh (asked k log))) /\
      let ready := entries (filter is_frag q) ++ fresh in
      if (tm_f (sl_ts slot) =? 18)%Z then m = [] /\ filter is_frag q' = filter is_frag q /\ entries (filter is_resource q') = fresh
      else exists is,
        served_all ready is (entries q') m /\
        (ready <> [] -> loads (entries q') < loads ready) /\
        (bk_chan (sl_blk1 slot) = CBsch /\ ready = [] \/
         (bk_chan (sl_blk1 slot) = CSchF /\ length (window (bk_buf (sl_blk1 slot))) = 268 \/
          bk_chan (sl_blk1 slot) = CSchHd /\ length (window (bk_buf (sl_blk1 slot))) = 124 /\ ready = []) /\
         slot_items (window (bk_buf (sl_blk1 slot))) = Some is).
Proof.
  intros K FE E ET FT. destruct (history_inv k t code p evs log s K FE E) as (q & HQ & _).
  cbn [dl_step] in ET. bi ET. bi ET. destruct x0 as [[kk s2] m2]. injection ET as <- <- <-.
  assert (HQ1 : Q k x (asked k log) q).
  { unfold dl_tick_start in E0. bi E0. injection E0 as <-. apply (Q_same k s); [split; reflexivity|assumption]. }
  destruct HQ1 as (F & N0 & EQ & L & SM & NT). destruct HQ as (_ & _ & EQ0 & _).
  destruct (tick_own x kk s2 m2 k q _ E1 F N0 K FT EQ L SM) as (_ & _ & _ & _ & q2 & o & E2 & L2 & DD). exists q, q2. split; [assumption|]. split; [assumption|].
  destruct DD as [T ->|q1 T F18 -> -> B1 L1 G1 S1 CB|q1 is T F18 B1 L1 G1 S1 AF SV PR BLK TU]; rewrite T; [reflexivity| |]; exists (entries (filter is_resource q1)); rewrite <- NT;
    (split; [now apply sim_waits|]); cbv zeta; rewrite <- G1, <- entries_app'; fold (line q1).
  - rewrite F18. cbn [Z.eqb Pos.eqb]. auto.
  - destruct (Z.eqb_spec (tm_f (sl_ts kk)) 18) as [|_]; [contradiction|]. exists is. split; [assumption|]. split.
    + intros HN. assert (q1 <> []) by (intros ->; apply HN; reflexivity). specialize (PR H). pose proof (served_loads _ _ _ _ SV). destruct is; [congruence|]. cbn [length] in *. lia.
    + destruct BLK as [(A & ->)|([A|(A & -> & B)] & C)]; [left; auto|right; auto|right; split; [right; auto|exact C]].
Qed.

(** A station and two messages. *)
Definition ex_cell : cell_cfg :=
  mk_cell 204 1337 true 1521 4 0 4 false 2 65535 (mk_bss true true false false false false true false false false false) 3 1 0 0 false false false.
Definition ex_pre : precomps := match generate_precomps ex_cell false with Ok p => p | _ => mk_pre (mk_si 0 0 0 0 false 0 0 0 0 0 None None 0 None None None) (mk_si 0 0 0 0 false 0 0 0 0 0 None None 0 None None None) (mk_msi 0 0 (cf_services ex_cell)) (mk_sync 0 0 (mk_time 0 0 0 0) 0 0 false false) (mk_msync 0 0 0 0 false) end.
Definition ex_hdr (ssi : N) (g : option slotgrant) : mac_resource := mk_mres false 0 0 false 0 (Some (mk_addr ssi false SsiSsi)) None None None g None.
Definition bits_of (n : nat) : list bool := map (fun i => Nat.odd (i / 3)) (seq 0 n).
Definition ex_sdu (n : nat) : bitbuf := match bb_from_bitstr (bits_of n) with Ok b => b | _ => bb_new 0 end.
Definition ex_start : tdma_time := mk_time 4 1 1 0.
(** a message of 500 bits and one of 45 bits on timeslot 1, a grant and an acknowledgement *)
Definition ex_rep : tx_reporter := mk_tx true 0.
Definition ex_evs : list dl_event :=
  [DvResource 1 (ex_hdr 1001 None) (ex_sdu 500) (Some ex_rep); DvResource 1 (ex_hdr 1002 None) (ex_sdu 45) None; DvAck 1 (mk_addr 1003 false SsiSsi)]
  ++ repeat DvTick 4 ++ [DvGrant 1 (mk_addr 1003 false SsiSsi) (mk_sg 0 GdNext)] ++ repeat DvTick 4.

Notation ex_run evs := (dl_run (DvStart ex_start :: evs) (dls_new 5 ex_pre)).
Lemma ends_spec {A} evs (f : list (dl_event * option dl_slot * list tx_reporter) -> dls -> A) (v : A) :
  match ex_run evs with Ok (log, s) => Some (f log s) | _ => None end = Some v -> exists log s, ex_run evs = Ok (log, s) /\ f log s = v.
Proof. destruct (ex_run evs) as [[log s]| |]; try discriminate. intros H. injection H as H. eauto. Qed.
Lemma sdu_ok n : wf (ex_sdu n) /\ bpos (ex_sdu n) = bstart (ex_sdu n) /\ length (remaining (ex_sdu n)) = n.
Proof.
  unfold ex_sdu. destruct (from_bitstr_spec (bits_of n)) as (b & E & W & P & _ & WN). rewrite E. split; [assumption|]. split; [assumption|].
  pose proof (window_split b W) as S. assert (written b = []) as Z by (unfold written; rewrite P, Nat.sub_diag; reflexivity). rewrite Z in S. cbn [app] in S. rewrite <- S, WN. unfold bits_of. now rewrite map_length, seq_length.
Qed.
Lemma good_ex ssi g n rep : sendable (ex_hdr ssi g) -> pending rep -> not_cut (width (mr_layout (ex_hdr ssi g))) n -> good_message (ex_hdr ssi g) (ex_sdu n) rep.
Proof. intros S P C. destruct (sdu_ok n) as (W & B & L). unfold good_message. rewrite L. auto. Qed.
Lemma ticks_fair k n : Forall (fair k) (repeat DvTick n).
Proof. induction n; constructor; [exact Logic.I|assumption]. Qed.
Ltac not_cut_tac := unfold not_cut; match goal with |- context [width ?l] => let w := eval vm_compute in (width l) in change (width l) with w end; first [left; reflexivity|right; left; reflexivity|right; right; vm_compute; lia].
Lemma ex_fair : Forall (fair 1) ex_evs.
Proof.
  unfold ex_evs. apply Forall_app. split; [|apply Forall_app; split; [apply ticks_fair|apply Forall_app; split; [|apply ticks_fair]]].
  - constructor; [|constructor; [|constructor; [|constructor]]]; intros _.
    + apply good_ex; [split; reflexivity|reflexivity|not_cut_tac].
    + apply good_ex; [split; reflexivity|exact Logic.I|not_cut_tac].
    + split; reflexivity.
  - constructor; [|constructor]. intros _. split; reflexivity.
Qed.
Definition whats_heard (log : list (dl_event * option dl_slot * list tx_reporter)) : option (list (N * nat) * bool) :=
  match hear (air 1 log) with Clear got part => Some (map (fun x => (match mr_addr (fst x) with Some a => ad_ssi a | None => 0%N end, length (snd x))) got, match part with Some _ => true | None => false end) | _ => None end.
Lemma ex_heard : exists log s, ex_run (ex_evs ++ repeat DvTick 4) = Ok (log, s) /\ whats_heard log = Some ([(1001%N, 500); (1002%N, 45); (1003%N, 0); (1003%N, 0)], false).
Proof. apply (ends_spec (ex_evs ++ repeat DvTick 4) (fun log _ => whats_heard log)). vm_compute. reflexivity. Qed.
Lemma ex_middle : exists log s, ex_run ex_evs = Ok (log, s) /\ whats_heard log = Some ([], true) /\
  map (fun w => width (mr_layout (w_hdr w))) (dk_firm (asked 1 log)) = [43; 43; 43; 51].
Proof.
  destruct (ends_spec ex_evs (fun log _ => (whats_heard log, map (fun w => width (mr_layout (w_hdr w))) (dk_firm (asked 1 log)))) (Some ([], true), [43; 43; 43; 51])) as (log & s & E & H); [vm_compute; reflexivity|].
  exists log, s. split; [exact E|]. injection H as -> ->. auto.
Qed.

(** Messages mixed up: one with a longer header is passed over at the end of a slot, the next one begins there. *)
Definition sg0 : slotgrant := mk_sg 0 GdNext.
Definition mixed_evs : list dl_event :=
  [DvResource 1 (ex_hdr 1001 None) (ex_sdu 181) None; DvResource 1 (ex_hdr 1002 (Some sg0)) (ex_sdu 300) None; DvResource 1 (ex_hdr 1003 None) (ex_sdu 300) None] ++ repeat DvTick 8.
Lemma mixed_fair : Forall (fair 1) mixed_evs.
Proof.
  unfold mixed_evs. apply Forall_app. split; [|apply ticks_fair]. constructor; [|constructor; [|constructor; [|constructor]]]; intros _; (apply good_ex; [split; reflexivity|exact Logic.I|not_cut_tac]).
Qed.
Lemma mixed_heard : exists log s, ex_run mixed_evs = Ok (log, s) /\ hear (air 1 log) = Mixed.
Proof. apply (ends_spec mixed_evs (fun log _ => hear (air 1 log))). vm_compute. reflexivity. Qed.
(** Two grants to one station before the next slot: only the last one is sent. *)
Definition twice_evs : list dl_event :=
  [DvGrant 1 (mk_addr 1001 false SsiSsi) (mk_sg 0 GdNext); DvGrant 1 (mk_addr 1001 false SsiSsi) (mk_sg 1 (GdDelay 3))] ++ repeat DvTick 8.
Lemma twice_heard : exists log s, ex_run twice_evs = Ok (log, s) /\ get_q 1 s = Ok [] /\
  hear (air 1 log) = Clear [(header (ex_hdr 1001 (Some (mk_sg 1 (GdDelay 3)))), [])] None.
Proof.
  destruct (ends_spec twice_evs (fun log s => (get_q 1 s, hear (air 1 log))) (Ok [], Clear [(header (ex_hdr 1001 (Some (mk_sg 1 (GdDelay 3)))), [])] None)) as (log & s & E & H); [vm_compute; reflexivity|].
  exists log, s. split; [exact E|]. split; [exact (f_equal fst H)|exact (f_equal snd H)].
Qed.
(** A stolen half slot that was never sent because its call ended, and a long message on the same timeslot. *)
Definition call_start : list dl_event := [DvOpen DirDl 2 4; DvOpen DirUl 2 4].
Definition call_end : list dl_event := [DvClose DirDl 2; DvClose DirUl 2].
Definition long_message : dl_event := DvResource 2 (ex_hdr 1001 None) (ex_sdu 500) None.
Definition stuck_evs : list dl_event := call_start ++ [DvSteal 2 (bb_new 124) None] ++ call_end ++ [long_message] ++ repeat DvTick 8.
Lemma stuck_panics : dl_run (DvStart ex_start :: stuck_evs) (dls_new 5 ex_pre) = Panic.
Proof. vm_compute. reflexivity. Qed.
Lemma stuck_without : exists log s, ex_run (call_start ++ call_end ++ [long_message] ++ repeat DvTick 8) = Ok (log, s).
Proof. destruct (ends_spec (call_start ++ call_end ++ [long_message] ++ repeat DvTick 8) (fun _ _ => 0) 0) as (log & s & E & _); [vm_compute; reflexivity|eauto]. Qed.
(** A slot in the middle of a history, on timeslot 1. *)
Lemma ex_slot : exists log s slot m s', ex_run (firstn 6 ex_evs) = Ok (log, s) /\ dl_step DvTick s = Ok (Some slot, m, s') /\ for_ts 1 (sl_ts slot) = true /\ is_traffic slot = false /\
  length (window (bk_buf (sl_blk1 slot))) = 268.
Proof.
  assert (H : match ex_run (firstn 6 ex_evs) with Ok (_, s) => match dl_step DvTick s with Ok (Some slot, _, _) => Some (for_ts 1 (sl_ts slot), is_traffic slot, length (window (bk_buf (sl_blk1 slot)))) | _ => None end | _ => None end = Some (true, false, 268)) by (vm_compute; reflexivity).
  destruct (ex_run (firstn 6 ex_evs)) as [[log s]| |]; try discriminate. destruct (dl_step DvTick s) as [[[[slot|] m] s']| |] eqn:E; try discriminate.
  exists log, s, slot, m, s'. injection H as H1 H2 H3. auto.
Qed.

Lemma order_met : Forall (fair 1) (firstn 9 ex_evs) /\ exists log s, ex_run (firstn 9 ex_evs) = Ok (log, s) /\
  Forall (fun w => width (mr_layout (w_hdr w)) = 43) (dk_firm (asked 1 log)) /\ length (dk_firm (asked 1 log)) = 3.
Proof.
  split; [pose proof ex_fair as F; rewrite <- (firstn_skipn 9 ex_evs) in F; apply Forall_app in F; exact (proj1 F)|].
  destruct (ends_spec (firstn 9 ex_evs) (fun log _ => map (fun w => width (mr_layout (w_hdr w))) (dk_firm (asked 1 log))) [43; 43; 43]) as (log & s & E & H); [vm_compute; reflexivity|].
  exists log, s. split; [exact E|]. revert H. generalize (dk_firm (asked 1 log)). clear. intros l H. split.
  - assert (F : Forall (fun n => n = 43) (map (fun w => width (mr_layout (w_hdr w))) l)) by (rewrite H; repeat constructor). rewrite Forall_forall in *. intros x IN. apply F. apply in_map_iff. exists x. split; [reflexivity|assumption].
  - apply (f_equal (@length nat)) in H. rewrite map_length in H. exact H.
Qed.
Lemma mixed : exists evs log s, Forall (fair 1) evs /\ dl_run (DvStart ex_start :: evs) (dls_new 5 ex_pre) = Ok (log, s) /\ hear (air 1 log) = Mixed.
Proof. exists mixed_evs. destruct mixed_heard as (log & s & A & B).  exists log, s. split; [exact mixed_fair|]. split; [exact A|exact B]. Qed.
Lemma twice : exists a g1 g2 log s, g1 <> g2 /\
  dl_run (DvStart ex_start :: [DvGrant 1 a g1; DvGrant 1 a g2] ++ repeat DvTick 8) (dls_new 5 ex_pre) = Ok (log, s) /\ get_q 1 s = Ok [] /\
  exists h, hear (air 1 log) = Clear [(h, [])] None /\ mr_sg h = Some g2.
Proof.
  exists (mk_addr 1001 false SsiSsi), (mk_sg 0 GdNext), (mk_sg 1 (GdDelay 3)). destruct twice_heard as (log & s & A & B & C). unfold twice_evs in A. exists log, s.
  split; [discriminate|]. split; [exact A|]. split; [exact B|]. eexists. split; [exact C|reflexivity].
Qed.
Lemma leftover : exists steal : dl_event,
  dl_run (DvStart ex_start :: call_start ++ [steal] ++ call_end ++ [long_message] ++ repeat DvTick 8) (dls_new 5 ex_pre) = Panic /\
  exists log s, dl_run (DvStart ex_start :: call_start ++ call_end ++ [long_message] ++ repeat DvTick 8) (dls_new 5 ex_pre) = Ok (log, s).
Proof.
  exists (DvSteal 2 (bb_new 124) None). pose proof stuck_panics as A. unfold stuck_evs in A. destruct stuck_without as (log & s & B).  split; [exact A|]. exists log, s. exact B.
Qed.
