(** What the link layer and the mobile link entity make of what the upper MAC hands up. *)
From Coq Require Import Arith ZArith.
From Verif Require Import Base BitsLib AMap BitBuffer BitBufferProofs BitBufferOps Codec TdmaTime TdmaTimeProofs MacFields Defrag DefragSpec DefragProofs TxReceipt
  Llc LlcSpec LlcBits LlcProofs LlcRun LlcFacts UlSched DlSched DlSlot UmacBs UlBlockSpec UlBlockPdu UlBlockFacts MleBs UpPath UpPathSpec.
From Verif Require Mobility CallControl.
Open Scope nat_scope.

(** * What the upper MAC hands up are proper buffers *)
Lemma last_wf d h src t ssi b d' src' : df_rel d h -> vtime t -> wf src -> insert_last src ssi t d = Ok (Some b, d', src') -> wf (df_bits b).
Proof.
  intros R V W E. destruct (next_core d h src t ssi R V W) as (d1 & src1 & E1 & R1). unfold insert_last in E. rewrite E1 in E. cbn [bind] in E.
  rewrite ts_index_ok in E by assumption. cbn [bind] in E. destruct (slot_map_ok d1 _ t R1 V) as (EM & TM & HL). rewrite EM in E. cbn [bind] in E.
  pose proof (proj2 (proj2 R1) (tm_t t) ssi (proj1 V)) as HE.
  set (m := nth (Z.to_nat (tm_t t - 1)) d1 []) in *. destruct (aget ssi m) as [b0|]; [|discriminate E].
  assert (W0 : wf (df_bits b0) /\ bstart (df_bits b0) = 0).
  { unfold entry_ok in HE. destruct (coll (tm_t t) ssi (h ++ [DfNext t ssi src])) as [[[[a aie] bits] last]|].
    - destruct HE as (b1 & X & _ & _ & _ & _ & (H1 & _ & H2 & _) & _). injection X as <-. auto.
    - destruct HE as [X|X]; [discriminate X|]. injection X as ->. split; [apply wf_new_autoexpand|reflexivity]. }
  destruct W0 as (W0 & S0). unfold set_raw_pos in E. rewrite S0 in E. cbn [Nat.leb assert bind] in E. injection E as <- _ _. cbn [df_bits].
  destruct W0 as (Wb1 & Wb2 & Wb3 & Wb4). unfold wf, set_pos, cap in *. cbn [bytes bstart bpos bend] in *. split; [lia|]. split; [lia|]. split; [lia|assumption].
Qed.

Definition out_fine (i : tmv_ind) (o : um_out) : Prop := match o with OutSdu t b _ _ => t = tv_time i /\ wf b | _ => True end.
Definition dfr (u : umac) : Prop := exists h, df_rel (um_defrag u) h.
Lemma does_fine i x u u' o c : vtime (tv_time i) -> dfr u -> does i x u (Ok (u', o, c)) -> Forall (out_fine i) o /\ dfr u'.
Proof.
  intros V (h & R) D. destruct x as [|a|a q|a d|a d|d|req d]; cbn [does] in D.
  - injection D as -> -> _. split; [constructor; [exact Logic.I|constructor]|exists h; exact R].
  - symmetry in D. destruct (dl_enqueue_random_access_ack _ _ _) as [s|e|]; cbn [bind] in D; try discriminate D. injection D as <- <- _. split; [constructor|exists h; exact R].
  - symmetry in D. destruct (rx_reservation _ _ _ _) as [s|e|]; cbn [bind] in D; try discriminate D. injection D as <- <- _. split; [constructor|exists h; exact R].
  - destruct D as (b & W & _ & _ & D). injection D as -> -> _. split; [constructor; [split; [reflexivity|exact W]|constructor]|exists h; exact R].
  - destruct D as (f & W & _ & D). destruct (first_step _ _ f (tv_time i) a false R V W) as (d' & E & R'). cbn [df_step] in D. rewrite E in D. cbn [bind] in D. injection D as -> -> _.
    split; [constructor|]. eexists. exact R'.
  - destruct D as (f & W & _ & D). destruct (ul_get_slot_owner _ _ _) as [[ssi|]|e|]; cbn [bind] in D; try discriminate D; [|injection D as -> -> _; split; [constructor|exists h; exact R]].
    destruct (get_aie_info ssi _ _) as [[|]|e|]; cbn [bind] in D; try discriminate D; [injection D as -> -> _; split; [constructor|exists h; exact R]|].
    destruct (next_core _ _ f (tv_time i) ssi R V W) as (d' & f' & E & R'). cbn [df_step] in D. rewrite E in D. cbn [bind] in D. injection D as -> -> _. split; [constructor|]. eexists. exact R'.
  - destruct D as (f & W & _ & D). destruct (ul_get_slot_owner _ _ _) as [[ssi|]|e|]; cbn [bind] in D; try discriminate D; [|injection D as -> -> _; split; [constructor|exists h; exact R]].
    destruct (get_aie_info ssi _ _) as [[|]|e|]; cbn [bind negb assert] in D; try discriminate D.
    destruct (last_step _ _ f (tv_time i) ssi R V W) as (g & d' & f' & E & R' & _). pose proof (fun b d1 f1 => last_wf (um_defrag u) h f (tv_time i) ssi b d1 f1 R V W) as LW. cbn [df_step] in D. rewrite E in D. cbn [bind] in D.
    destruct g as [b|]; [|injection D as -> -> _; split; [constructor|eexists; exact R']].
    destruct (rx_reservation _ _ _ _) as [s|e|]; cbn [bind] in D; try discriminate D. injection D as -> -> _. split; [|eexists; exact R'].
    constructor; [|constructor]. split; [reflexivity|]. exact (LW b d' f' E).
Qed.
Lemma does_all_fine i l u r : vtime (tv_time i) -> does_all i l u r -> dfr u -> match r with Ok (u', o, c) => Forall (out_fine i) o /\ dfr u' | _ => True end.
Proof.
  intros V D. induction D as [u|x l u D|x l u u' o D|x l u u' o D r Dr IH]; intros R.
  - split; [constructor|exact R].
  - exact Logic.I.
  - exact (does_fine _ _ _ _ _ _ V R D).
  - destruct (does_fine _ _ _ _ _ _ V R D) as (F & R'). specialize (IH R'). destruct r as [[[v o'] c]|e|]; cbn [bind]; try exact Logic.I. destruct IH as (F' & R2). split; [apply Forall_app; auto|exact R2].
Qed.
Lemma heard_fine i l u r : vtime (tv_time i) -> heard i l u r -> dfr u -> match r with Ok (u', o) => Forall (out_fine i) o /\ dfr u' | _ => True end.
Proof.
  intros V H. induction H as [l u E|l u acts n E D|l u acts n u' o c E D C|l u acts n u' o E D L|l u acts n u' o r E D L H IH]; intros R; try exact Logic.I.
  - exact (does_all_fine _ _ _ _ V D R).
  - exact (does_all_fine _ _ _ _ V D R).
  - destruct (does_all_fine _ _ _ _ V D R) as (F & R'). specialize (IH R'). destruct r as [[v o']|e|]; cbn [bind]; try exact Logic.I. destruct IH as (F' & R2). split; [apply Forall_app; auto|exact R2].
Qed.
Lemma block_fine c u i pdu u' o : reached c u -> wf pdu -> bpos pdu = bstart pdu -> vtime (tv_time i) -> on_channel i = true ->
  rx_tmv_unitdata_ind i pdu u = Ok (u', o) -> Forall (out_fine i) o.
Proof.
  intros R W P V C E. destruct (block_heard c u i pdu R W P V C) as (r & E' & H). rewrite E in E'. subst r.
  destruct (reached_sound c u R) as (_ & h & D & _). exact (proj1 (heard_fine _ _ _ _ V H (ex_intro _ h D))).
Qed.

(** * The link layer *)
Lemma log_ok_did (ev : list (lev unit)) : forall n g, log_ok n g (map LDid ev).
Proof. induction ev as [|e ev IH]; intros n g; [exact Logic.I|]. cbn [map log_ok item_ok]. split; [exact Logic.I|apply IH]. Qed.
Lemma llc_run_app (a b : list (lcall unit)) : forall s log s1, llc_run a s = Ok (log, s1) ->
  llc_run (a ++ b) s = ('(log', s2) <- llc_run b s1 ;; Ok (log ++ log', s2)).
Proof.
  induction a as [|c a IH]; intros s log s1 E; cbn [llc_run app] in *.
  - injection E as <- <-. destruct (llc_run b s) as [[x y]| |]; reflexivity.
  - destruct (llc_step c s) as [[ev s2]|e|]; cbn [bind] in *; try discriminate E. destruct (llc_run a s2) as [[log2 s3]|e|] eqn:E2; cbn [bind] in *; try discriminate E. injection E as <- <-.
    rewrite (IH _ _ _ E2). destruct (llc_run b s3) as [[x y]| |]; cbn [bind]; try reflexivity. now rewrite <- app_comm_cons, <- app_assoc.
Qed.
Lemma link_ind s t a b : link_reached s -> vtime t -> wf b ->
  if ind_panics (remaining b) then rx_unitdata_ind t a (Some b) s = Panic
  else exists ev s', rx_unitdata_ind t a (Some b) s = Ok (ev, s') /\ link_reached s'.
Proof.
  intros (l & log & E & O & N) V W.
  assert (OK : log_ok [] [] (log ++ [LCall (LInd t a (Some b))])).
  { apply log_ok_app. split; [exact O|]. cbn [log_ok item_ok]. split; [|exact Logic.I]. split; [|exact W]. apply vtime_valid. exact V. }
  pose proof (run_panics l log s (LInd t a (Some b)) E OK N) as P. cbn [llc_step bad_call] in P.
  destruct (ind_panics (remaining b)); [now apply P|].
  pose proof (ind_spec t a b s W) as H. destruct (rx_unitdata_ind t a (Some b) s) as [[ev s']|e|] eqn:X.
  - exists ev, s'. split; [reflexivity|]. exists (l ++ [LInd t a (Some b)]), (log ++ LCall (LInd t a (Some b)) :: map LDid ev).
    split; [|split].
    + rewrite (llc_run_app _ _ _ _ _ E). cbn [llc_run llc_step]. rewrite X. cbn [bind]. now rewrite app_nil_r.
    + apply log_ok_app in OK. apply log_ok_app. split; [exact O|]. destruct OK as (_ & Q & _). cbn [log_ok]. split; [exact Q|apply log_ok_did].
    + apply Forall_app. split; [exact N|]. constructor; [exact Logic.I|constructor].
  - exfalso. destruct (ind_panics (remaining b)); [discriminate H|]. destruct (bl_accept (remaining b)) as [p|]; [|discriminate H].
    destruct (ind_effect t a p s) as [[ev0 s0]|e0|]; [|destruct H|discriminate H]. destruct (is_ack p); [discriminate H|]. destruct H as (i & H & _). discriminate H.
  - exfalso. discriminate (proj1 P eq_refl).
Qed.

(** What the mobile link entity is given for a list of SDUs none of which the link layer panics on. *)
Inductive inds_ok : list (tdma_time * tetra_addr * list bool) -> list tla_ind -> Prop :=
| io_none : inds_ok [] []
| io_skip t a l r is : ind_panics l = false -> (bl_accept l = None \/ exists p, bl_accept l = Some p /\ is_ack p = true) -> inds_ok r is -> inds_ok ((t, a, l) :: r) is
| io_one t a l p r i is : ind_panics l = false -> bl_accept l = Some p -> is_ack p = false -> to_mle t a p i -> inds_ok r is -> inds_ok ((t, a, l) :: r) (i :: is).
Definition sane_out (o : um_out) : Prop := match o with OutSdu t b _ _ => vtime t /\ wf b | _ => True end.
Lemma llc_all_spec : forall outs s, link_reached s -> Forall sane_out outs ->
  if existsb (fun x => ind_panics (snd x)) (handed_up outs) then llc_all outs s = Panic
  else exists is s', llc_all outs s = Ok (is, s') /\ link_reached s' /\ inds_ok (handed_up outs) is.
Proof.
  induction outs as [|o outs IH]; intros s R F.
  { exists [], s. split; [reflexivity|]. split; [exact R|constructor]. }
  pose proof (Forall_inv F) as Fo. pose proof (Forall_inv_tail F) as Ft.
  destruct o as [t b a sc| | | |]; try exact (IH s R Ft).
  destruct Fo as (V & W). unfold handed_up. cbn [flat_map app existsb snd]. fold (handed_up outs). cbn [llc_all].
  pose proof (link_ind s t a b R V W) as H. destruct (ind_panics (remaining b)) eqn:EP; cbn [orb].
  { rewrite H. reflexivity. }
  destruct H as (ev & s1 & E & R1). rewrite E. cbn [bind]. pose proof (ind_delivers t a b s s1 ev W E) as D.
  specialize (IH s1 R1 Ft). destruct (existsb _ (handed_up outs)).
  { rewrite IH. reflexivity. }
  destruct IH as (is & s2 & E2 & R2 & I2). rewrite E2. cbn [bind].
  change (flat_map (fun e : lev unit => match e with LToMle i => [i] | _ => [] end) ev) with (deliveries ev).
  destruct (bl_accept (remaining b)) as [p|] eqn:EA.
  - destruct (is_ack p) eqn:EK.
    + rewrite D. exists is, s2. split; [reflexivity|]. split; [exact R2|]. constructor; [exact EP|right; exists p; split; assumption|exact I2].
    + destruct D as (i & D & M). rewrite D. exists (i :: is), s2. split; [reflexivity|]. split; [exact R2|]. econstructor; eassumption.
  - destruct D as (-> & _). exists is, s2. split; [reflexivity|]. split; [exact R2|]. constructor; [exact EP|left; exact EA|exact I2].
Qed.

(** * The mobile link entity *)
Definition MAXH : N := 4294967295.
Lemma mle_read t a p i : to_mle t a p i -> is_udata p = false -> forall b, ti_sdu i = Some b ->
  wf b /\ get_pos b = Ok 0 /\ read_bits_opt b 3 = Ok (if 3 <=? length (LlcSpec.sdu_of p) then (Some (bits_val (firstn 3 (LlcSpec.sdu_of p))), adv b 3) else (None, b)) /\
  (3 <= length (LlcSpec.sdu_of p) -> wf (adv b 3) /\ remaining (adv b 3) = skipn 3 (LlcSpec.sdu_of p)).
Proof.
  intros (_ & _ & _ & _ & _ & M) U b E. rewrite E in M. destruct M as (W & Er & Ew & _). split; [exact W|]. split.
  - pose proof W as (W1 & W2 & W3 & _). assert (H : length (window b) = length (remaining b)) by congruence. rewrite remaining_length in H. unfold window in H. rewrite bits_rng_length in H by (assumption || lia).
    unfold get_pos, sub_checked. destruct (Nat.leb_spec (bstart b) (bpos b)); [|lia]. f_equal. lia.
  - rewrite read_bits_opt_spec by (assumption || lia). rewrite Er. split; [reflexivity|]. intros L. split; [apply wf_adv; [assumption|rewrite Er; exact L]|]. rewrite remaining_adv by (rewrite ?Er; assumption). now rewrite Er.
Qed.
Definition kills (f : fate) : bool := match f with Dies => true | _ => false end.
Lemma prim_spec t a p i m : to_mle t a p i -> is_ack p = false -> (ml_next m < MAXH)%N ->
  let f := if is_udata p then Dies else addressed (LlcSpec.sdu_of p) in
  match f with
  | Dies => rx_tla_prim i m = Panic \/ exists b, rx_tla_prim i m = Ok ([UpSndcp t b a], m)
  | _ => exists x m', rx_tla_prim i m = Ok (x, m') /\ gets t a f (ml_next m) x (ml_next m') /\ layer3_all x = Ok tt
  end.
Proof.
  intros M K H. pose proof M as (MU & MT & MA & ML & _ & MS). unfold rx_tla_prim. rewrite MU. destruct (is_udata p) eqn:U; [left; reflexivity|]. cbn zeta.
  unfold rx_tla_data_ind_bl. destruct (ti_sdu i) as [b|] eqn:ES; [|rewrite MS; left; reflexivity]. cbn [unwrap bind].
  destruct (mle_read t a p i M U b ES) as (W & EP & ER & EA). rewrite EP. cbn [bind Nat.eqb assert]. rewrite ER. cbn [bind]. clear ER EP.
  assert (CH : create_handle m = Ok (ml_next m, mk_mle (ml_next m + 1) (ml_zone m) (ml_last m))).
  { unfold create_handle. destruct (N.ltb_spec (ml_next m) 4294967295); [reflexivity|unfold MAXH in H; lia]. }
  destruct MS as (_ & _ & _ & NE). destruct (LlcSpec.sdu_of p) as [|x1 [|x2 [|x3 rest]]]; [contradiction| | |].
  - change (3 <=? length [x1]) with false. cbv iota. destruct x1; exists [], m; repeat split.
  - change (3 <=? length [x1; x2]) with false. cbv iota. destruct x1, x2; exists [], m; repeat split.
  - change (3 <=? length (x1 :: x2 :: x3 :: rest)) with true. cbv iota. destruct (EA ltac:(cbn [length]; lia)) as (Wa & Ra). cbn [skipn] in Ra.
    rewrite MT, MA, ML. cbn [firstn].
    destruct x1, x2, x3; match goal with |- context [bits_val ?l] => let v := eval vm_compute in (bits_val l) in change (bits_val l) with v end;
      unfold PdMm, PdCmce, PdSndcp, PdMle, PdTme; cbn [N.eqb Pos.eqb addressed]; rewrite ?CH; cbn [bind rx_tla_mle_pdu].
    all: try (exists [], m; repeat split; fail).
    + right. eexists. reflexivity.
    + eexists _, _. split; [reflexivity|]. cbn [gets ml_next]. split; [|reflexivity]. split; [reflexivity|]. eexists. split; [reflexivity|]. split; [exact Wa|exact Ra].
    + eexists _, _. split; [reflexivity|]. cbn [gets ml_next]. split; [|reflexivity]. split; [reflexivity|]. eexists. split; [reflexivity|]. split; [exact Wa|exact Ra].
Qed.
Lemma fate_data l p : ind_panics l = false -> bl_accept l = Some p -> is_ack p = false -> fate_of l = if is_udata p then Dies else addressed (LlcSpec.sdu_of p).
Proof. intros P A K. unfold fate_of. rewrite P, A. destruct p; try reflexivity. discriminate K. Qed.
Lemma fate_none l : ind_panics l = false -> (bl_accept l = None \/ exists p, bl_accept l = Some p /\ is_ack p = true) -> fate_of l = Dropped.
Proof. intros P [A|(p & A & K)]; unfold fate_of; rewrite P, A; [reflexivity|]. destruct p; try discriminate K. reflexivity. Qed.
Lemma layer3_app a b : layer3_all (a ++ b) = (_ <- layer3_all a ;; layer3_all b).
Proof. induction a as [|x a IH]; [reflexivity|]. destruct x; cbn [app layer3_all]; try exact IH. reflexivity. Qed.
Lemma layer3_or x : layer3_all x = Ok tt \/ layer3_all x = Panic.
Proof. induction x as [|o x IH]; [left; reflexivity|]. destruct o; cbn [layer3_all]; try exact IH. now right. Qed.
Lemma mle_all_spec : forall xs is, inds_ok xs is -> forall m, (ml_next m + N.of_nat (length xs) <= MAXH)%N ->
  if existsb (fun x => kills (fate_of (snd x))) xs
  then mle_all is m = Panic \/ exists ups m', mle_all is m = Ok (ups, m') /\ layer3_all ups = Panic
  else exists ups m', mle_all is m = Ok (ups, m') /\ layer3_all ups = Ok tt /\ get_all xs (ml_next m) ups (ml_next m').
Proof.
  induction 1 as [|t a l r is P A H IH|t a l p r i is P A K M H IH]; intros m L.
  - exists [], m. split; [reflexivity|]. split; [reflexivity|constructor].
  - cbn [existsb snd]. rewrite (fate_none l P A). cbn [kills orb]. cbn [length] in L. specialize (IH m ltac:(lia)). destruct (existsb _ r); [exact IH|].
    destruct IH as (ups & m' & E & E3 & G). exists ups, m'. split; [exact E|]. split; [exact E3|]. change ups with ([] ++ ups). econstructor; [|exact G]. rewrite (fate_none l P A). split; reflexivity.
  - cbn [existsb snd]. cbn [length] in L. rewrite (fate_data l p P A K). pose proof (prim_spec t a p i m M K ltac:(lia)) as S. cbn zeta in S.
    set (f := if is_udata p then Dies else addressed (LlcSpec.sdu_of p)) in *. assert (EF : fate_of l = f) by exact (fate_data l p P A K). cbn [mle_all].
    assert (D : kills f = false -> exists x m1, rx_tla_prim i m = Ok (x, m1) /\ gets t a f (ml_next m) x (ml_next m1) /\ layer3_all x = Ok tt) by (intros Z; destruct f; [discriminate Z|exact S..]).
    destruct (kills f) eqn:KF; cbn [orb].
    + assert (f = Dies) as -> by (destruct f; try discriminate KF; reflexivity). clear D. destruct S as [-> |(b & ->)]; [left; reflexivity|]. cbn [bind].
      specialize (IH m ltac:(lia)). destruct (existsb _ r).
      * destruct IH as [-> |(ups & m' & -> & E3)]; [left; reflexivity|]. cbn [bind]. right. exists ([UpSndcp t b a] ++ ups), m'. split; [reflexivity|]. reflexivity.
      * destruct IH as (ups & m' & -> & _). cbn [bind]. right. exists ([UpSndcp t b a] ++ ups), m'. split; reflexivity.
    + destruct (D eq_refl) as (x & m1 & E1 & G1 & L1). rewrite E1. cbn [bind].
      assert (B : (ml_next m1 <= ml_next m + 1)%N).
      { clear - G1. destruct f; cbn [gets] in G1; destruct G1 as [-> ?] || destruct G1 as [? ->] || destruct G1; lia. }
      specialize (IH m1 ltac:(lia)). destruct (existsb _ r).
      * destruct IH as [-> |(ups & m' & -> & E3)]; [left; reflexivity|]. cbn [bind]. right. exists (x ++ ups), m'. split; [reflexivity|]. rewrite layer3_app, L1. exact E3.
      * destruct IH as (ups & m' & -> & E3 & G). cbn [bind]. exists (x ++ ups), m'. split; [reflexivity|]. split; [rewrite layer3_app, L1; exact E3|]. econstructor; [rewrite EF; exact G1|exact G].
Qed.

(** * The way up *)
Lemma panic_kills xs : existsb (fun x : tdma_time * tetra_addr * list bool => ind_panics (snd x)) xs = true -> existsb (fun x => kills (fate_of (snd x))) xs = true.
Proof.
  intros H. apply existsb_exists in H. destruct H as (x & I & E). apply existsb_exists. exists x. split; [exact I|]. unfold fate_of. rewrite E. reflexivity.
Qed.
Lemma rise_spec outs s m : link_reached s -> Forall sane_out outs -> (ml_next m + N.of_nat (length (handed_up outs)) <= MAXH)%N ->
  if existsb (fun x => kills (fate_of (snd x))) (handed_up outs) then rise outs s m = Panic
  else exists ups s' m', rise outs s m = Ok (ups, s', m') /\ link_reached s' /\ get_all (handed_up outs) (ml_next m) ups (ml_next m').
Proof.
  intros R F L. unfold rise. pose proof (llc_all_spec outs s R F) as H. destruct (existsb (fun x => ind_panics (snd x)) (handed_up outs)) eqn:EP.
  { rewrite (panic_kills _ EP), H. reflexivity. }
  destruct H as (is & s' & E & R' & I). rewrite E. cbn [bind]. pose proof (mle_all_spec _ _ I m L) as H. clear EP. destruct (existsb (fun x => kills (fate_of (snd x))) (handed_up outs)).
  - destruct H as [-> |(ups & m' & -> & E3)]; [reflexivity|]. cbn [bind]. rewrite E3. reflexivity.
  - destruct H as (ups & m' & -> & E3 & G). cbn [bind]. rewrite E3. cbn [bind]. exists ups, s', m'. auto.
Qed.
