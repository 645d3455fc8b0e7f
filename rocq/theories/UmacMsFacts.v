(** A mobile station that listens to the base station; examples. *)
From Coq Require Import Arith Permutation.
From Verif Require Import Base BitBuffer BitBufferProofs MacFields MacPdus MacSpec TdmaTime TdmaTimeProofs DlSched DlSchedSpec DlRun UlSched UmacPrecomps UmacBs SlotSpec DlTrace BsMac AirSpec HeardSpec HeardProofs HeardFacts.
From Verif Require Import ErrorControl BitsLib BitBufferOps Codec Layout MacBroadcast UmacMs MsSpec UmacMsProofs.
From Verif Require DlFacts StealSpec StealFacts.
Open Scope nat_scope.

(** * What the base station sends can be taken *)
Lemma note_plain n w : plain_wish w -> plain_wish (mk_wish (with_note n (w_hdr w)) (w_bits w) (w_rep w)).
Proof. intros H. destruct w as [h b r], n as [a [g|]]; exact H. Qed.
Lemma attach_plain n l : Forall plain_wish l -> Forall plain_wish (attach n l).
Proof.
  induction 1 as [|w l H F IH]; cbn [attach].
  - repeat constructor; destruct n as [a [g|]]; cbn; discriminate || reflexivity.
  - destruct (to_ssi _ w); constructor; auto. now apply note_plain.
Qed.
Lemma notes_plain ns : forall l, Forall plain_wish l -> Forall plain_wish (fold_left (fun l n => attach n l) ns l).
Proof. induction ns as [|n ns IH]; intros l H; [exact H|]. apply IH. now apply attach_plain. Qed.
Lemma desk_plain k x d : Forall plain_wish (dk_firm d ++ dk_fresh d) -> Forall plain_wish (wishes k [x]) -> Forall plain_wish (dk_firm (desk_step k d x) ++ dk_fresh (desk_step k d x)).
Proof.
  intros H W. apply Forall_app in H. destruct H as [H1 H2]. unfold wishes in W. cbn [flat_map] in W. rewrite app_nil_r in W. unfold desk_step. destruct x as [[e o] m]. cbn [fst snd] in *.
  assert (B : Forall plain_wish (dk_firm d ++ dk_fresh d)) by (apply Forall_app; split; assumption).
  assert (Tk : Forall plain_wish (dk_firm match o with
      | Some s => if for_ts k (sl_ts s) && negb (is_traffic s) then
            let fresh := fold_left (fun l n => attach n l) (dk_notes d) (dk_fresh d) in
            if (tm_f (sl_ts s) =? 18)%Z then mk_desk (dk_firm d) fresh [] else mk_desk (dk_firm d ++ fresh) [] [] else d
      | None => d end ++ dk_fresh match o with
      | Some s => if for_ts k (sl_ts s) && negb (is_traffic s) then
            let fresh := fold_left (fun l n => attach n l) (dk_notes d) (dk_fresh d) in
            if (tm_f (sl_ts s) =? 18)%Z then mk_desk (dk_firm d) fresh [] else mk_desk (dk_firm d ++ fresh) [] [] else d
      | None => d end)).
  { destruct o as [s|]; [|exact B]. destruct (for_ts k (sl_ts s) && negb (is_traffic s)); [|exact B]. cbv zeta. pose proof (notes_plain (dk_notes d) _ H2) as N.
    destruct (tm_f (sl_ts s) =? 18)%Z; cbn [dk_firm dk_fresh]; rewrite ?app_nil_r; apply Forall_app; split; assumption. }
  destruct e; try exact Tk; destruct (_ =? k); cbn [dk_firm dk_fresh]; try exact B.
  rewrite app_assoc. apply Forall_app. split; assumption.
Qed.
Lemma run_plain k lg : forall d, Forall plain_wish (dk_firm d ++ dk_fresh d) -> Forall plain_wish (wishes k lg) -> let d' := fold_left (desk_step k) lg d in Forall plain_wish (dk_firm d' ++ dk_fresh d').
Proof.
  induction lg as [|x lg IH]; intros d H W; [exact H|]. change (x :: lg) with ([x] ++ lg) in W. rewrite wishes_app in W. apply Forall_app in W. destruct W as [W1 W2].
  cbn [fold_left]. apply IH; [|exact W2]. now apply desk_plain.
Qed.
Definition short (x : option tetra_addr * list bool) : Prop := length (snd x) <= Pos.to_nat 4096.
Lemma message_take w l : In w l -> Forall plain_wish l -> Forall short (flat_map pay l) -> takeable (message w).
Proof.
  intros I F S. rewrite Forall_forall in F, S. destruct (F w I) as (A & B). split; [exact A|]. split; [exact B|]. unfold message. cbn [snd].
  destruct (w_bits w) as [|x t] eqn:E; [cbn [length]; lia|]. rewrite <- E. assert (X : In (mr_addr (header (w_hdr w)), w_bits w) (flat_map pay l)).
  { apply in_flat_map. exists w. split; [exact I|]. unfold pay, payload, message. cbn [fst snd]. rewrite E. left. reflexivity. }
  exact (S _ X).
Qed.
Lemma heard_plain c k s log : 1 <= k <= 4 -> traced c k s log -> Forall short (sends k (fun _ => idle_ts) (events_of log)) ->
  exists slots, (receives c k log slots /\ slots = flat_map (slot_air k) (AirSpec.sent log)) /\ told_to k s (sends k (fun _ => idle_ts) (events_of log)) (hear slots) /\
    match hear slots with Clear got part => all_take (Clear got part) | _ => True end.
Proof.
  intros K (code & t & p & evs & lg & D & F & R & W & PL) SH. exists (air k lg). split; [split; [exact (proj1 R)|now rewrite air_slots, (proj2 R)]|]. split.
  { destruct (DlFacts.C17_history_proof k t code p evs lg _ K F D) as (q & EQ & FR & _ & HR). apply get_nth in EQ. unfold told_to. destruct (hear (air k lg)) as [got part| |]; [|exact HR..]. destruct HR as (IS & PM).
    rewrite <- W, <- asked_pay. unfold owed. rewrite flat_map_app. unfold queued. rewrite EQ. split; [exact IS|].
    eapply Permutation_trans; [|apply Permutation_app_head, Permutation_flat_map, Permutation_map, Permutation_sym, entries_split]. rewrite map_app, flat_map_app, app_assoc. apply Permutation_app.
    - eapply Permutation_trans; [|rewrite <- flat_map_app; apply Permutation_flat_map, PM]. unfold pay. clear. induction (dk_firm (DlSchedSpec.asked k lg)); [constructor|]. cbn [flat_map map]. now apply Permutation_app_head.
    - now rewrite (fresh_pay part _ _ FR). }
  destruct (DlFacts.C17_history_proof k t code p evs lg _ K F D) as (q & EQ & FR & _ & HR). destruct (hear (air k lg)) as [got part| |]; auto. destruct HR as (IS & PM).
  assert (PW : Forall plain_wish (dk_firm (DlSchedSpec.asked k lg) ++ dk_fresh (DlSchedSpec.asked k lg))) by (apply (run_plain k lg desk_empty); [constructor|exact PL]).
  assert (SW : Forall short (flat_map pay (dk_firm (DlSchedSpec.asked k lg) ++ dk_fresh (DlSchedSpec.asked k lg)))) by (change (Forall short (owed (DlSchedSpec.asked k lg))); rewrite asked_pay, W; exact SH).
  assert (AL : forall m, In m (got ++ map (full part) (entries (filter is_frag q))) -> takeable m).
  { intros m I. apply (Permutation_in m (Permutation_sym PM)) in I. apply in_map_iff in I. destruct I as (w & <- & I). apply (message_take w _ (in_or_app _ _ _ (or_introl I)) PW SW). }
  split.
  - apply Forall_forall. intros m I. apply AL, in_or_app. now left.
  - destruct part as [[h a]|]; [|exact Logic.I]. unfold in_step in IS. destruct (filter en_going (entries (filter is_frag q))) as [|e [|? ?]] eqn:EF; try contradiction IS.
    assert (IE : In e (filter en_going (entries (filter is_frag q)))) by (rewrite EF; now left). apply filter_In in IE. destruct IE as [IE G].
    assert (X : takeable (full (Some (h, a)) e)) by (apply AL, in_or_app; right; apply in_map; exact IE). unfold full in X. rewrite G, IS in X. now apply take_shorter in X.
Qed.

(** * Together *)
Lemma listen_to k slots got part evs : 1 <= k <= 4 -> hear slots = Clear got part -> all_take (Clear got part) -> Forall event_fine evs -> slots_on k evs = slots -> (forall j, j <> k -> slots_on j evs = []) -> Forall uncut slots ->
  exists u out, ms_run evs ums_new = Ok (u, out) /\ handed (sdus_on k out) got.
Proof.
  intros K EH A F E1 E2 U.
  destruct (whole_history evs (fun j => if j =? k then got else []) (fun j => if j =? k then part else None) F) as (u & out & E & G).
  - intros j Hj. destruct (Nat.eqb_spec j k) as [->|NE]; [rewrite E1; split; [exact EH|exact A]|]. rewrite (E2 j NE). split; [reflexivity|]. split; [constructor|exact Logic.I].
  - intros j. destruct (Nat.eq_dec j k) as [->|NE]; [now rewrite E1|]. rewrite (E2 j NE). constructor.
  - exists u, out. split; [exact E|]. specialize (G k K). now rewrite Nat.eqb_refl in G.
Qed.

Lemma radio_hears c k s log : 1 <= k <= 4 -> cell_ok c = true -> bs_history c k s log -> Forall short (sends k (fun _ => idle_ts) (events_of log)) ->
  exists slots, receives c k log slots /\
  match hear slots with
  | Garbled => False
  | Mixed => True
  | Clear got part =>
      Permutation (sends k (fun _ => idle_ts) (events_of log)) (flat_map payload got ++ flat_map payload (queued k s part)) /\
      forall evs, Forall event_fine evs -> slots_on k evs = slots -> (forall j, j <> k -> slots_on j evs = []) -> Forall uncut slots ->
        exists u out, ms_run evs ums_new = Ok (u, out) /\ handed (sdus_on k out) got
  end.
Proof.
  intros K CO H SH. destruct (heard_plain c k s log K (history_traced c k s log K CO H) SH) as (slots & (R & _) & T & A). exists slots. split; [exact R|].
  destruct (hear slots) as [got part| |] eqn:EH; [|exact T..]. split; [exact (proj2 T)|]. intros evs F E1 E2 U.
  exact (listen_to k slots got part evs K EH A F E1 E2 U).
Qed.

Lemma radio_gets_all c k s log cns now s' more : 1 <= k <= 4 -> cell_ok c = true -> bs_history c k s log -> Forall short (sends k (fun _ => idle_ts) (events_of log)) ->
  vw_dl (bs_told (events_of log) k) = None -> 8 * work k s <= length cns -> bs_run c (ticking cns now) s = Ok (s', more) ->
  exists slots, receives c k (log ++ more) slots /\
  match hear slots with
  | Garbled => False
  | Mixed => True
  | Clear got part =>
      Permutation (sends k (fun _ => idle_ts) (events_of log)) (flat_map payload got) /\
      forall evs, Forall event_fine evs -> slots_on k evs = slots -> (forall j, j <> k -> slots_on j evs = []) -> Forall uncut slots ->
        exists u out, ms_run evs ums_new = Ok (u, out) /\ handed (sdus_on k out) got
  end.
Proof.
  intros K CO H SH NC HL E. assert (R : bs_reached c s log). { destruct H as (cn0 & s0 & cn & t & evs & EN & V & F & _ & ER & _). exists cn0, s0, cn, t, evs. auto. }
  destruct (AirFacts.reached_good c s log CO R) as (G & _).
  assert (W : waits c k (bs_told (events_of log)) s log). { split; [exact G|]. split; [|split; [exact NC|exact (history_traced c k s log K CO H)]]. reflexivity. }
  destruct (ticks_work c k _ cns K CO now s s' more log W E) as ((_ & _ & _ & T) & _ & EV & _). pose proof (idle_done k s' (all_done c k _ K CO _ cns now s s' more log (le_n _) HL W E)) as ID.
  assert (ES : sends k (fun _ => idle_ts) (events_of (log ++ more)) = sends k (fun _ => idle_ts) (events_of log)).
  { unfold events_of. rewrite map_app. fold (events_of log) (events_of more). rewrite sends_app, EV, ticks_send. apply app_nil_r. }
  destruct (heard_plain c k s' (log ++ more) K T) as (slots & (RS & _) & TT & A); [rewrite ES; exact SH|]. exists slots. split; [exact RS|]. rewrite ES in TT. unfold told_to, queued in TT.
  destruct (hear slots) as [got part| |] eqn:EH; [|exact TT..]. rewrite ID in TT. destruct TT as (_ & PM). cbn [map flat_map] in PM. rewrite app_nil_r in PM. split; [exact PM|].
  intros evs F E1 E2 U. exact (listen_to k slots got part evs K EH A F E1 E2 U).
Qed.

(** * The other channels *)
Lemma read3 {A} b a c d (k : N -> N -> N -> reader A) : wf b -> a <= 64 -> c <= 64 -> d <= 64 -> a + c + d <= length (remaining b) ->
  (x <~ rfield a ;; y <~ rfield c ;; z <~ rfield d ;; k x y z) b =
  k (bits_val (firstn a (remaining b))) (bits_val (firstn c (skipn a (remaining b)))) (bits_val (firstn d (skipn (a + c) (remaining b)))) (adv b (a + c + d)).
Proof.
  intros W HA C D L. unfold rbind, rfield, read_field.
  rewrite read_bits_opt_spec by assumption. destruct (Nat.leb_spec a (length (remaining b))); [|lia]. cbn [bind fst snd].
  assert (W1 : wf (adv b a)) by (apply wf_adv; assumption || lia). rewrite read_bits_opt_spec by assumption. rewrite remaining_adv, skipn_length by assumption. destruct (Nat.leb_spec c (length (remaining b) - a)); [|lia]. cbn [bind fst snd].
  assert (W2 : wf (adv (adv b a) c)) by (apply wf_adv; [assumption|rewrite remaining_adv, skipn_length by assumption; lia]). rewrite read_bits_opt_spec by assumption. rewrite adv_adv.
  rewrite remaining_adv, skipn_length by assumption. destruct (Nat.leb_spec d (length (remaining b) - (a + c))); [|lia]. cbn [bind fst snd]. now rewrite adv_adv.
Qed.
Lemma assignment i b u : wf b -> bpos b = bstart b -> mi_chan i = Aach -> 14 <= length (window b) -> tm_f (mi_time i) <> 18%Z ->
  ms_step (MeBlock i b) u = Ok (u, if assignment_known (window b) then [MoTraffic (mi_time i) (marks_traffic (window b))] else []).
Proof.
  intros W P C L F. cbn [ms_step]. rewrite C. unfold ms_aach. destruct (Z.eqb_spec (tm_f (mi_time i)) 18) as [?|_]; [contradiction|].
  rewrite window_at in * by assumption. unfold aa_read. rewrite read3 by (assumption || lia). unfold assignment_known, marks_traffic. cbn [Nat.add].
  assert (HH : (bits_val (firstn 2 (remaining b)) < 4)%N) by (eapply N.lt_le_trans; [apply bits_val_bound|]; rewrite firstn_length, Nat.min_l by lia; reflexivity || lia).
  generalize (bits_val (firstn 6 (skipn 2 (remaining b)))) as f1. generalize (bits_val (firstn 6 (skipn 8 (remaining b)))) as f2. revert HH. generalize (bits_val (firstn 2 (remaining b))) as h. generalize (adv b 14) as c. intros c h HH f2 f1.
  assert (DL : match dl_from_um f1 with DlTraffic _ => true | _ => false end = (4 <=? f1)%N).
  { unfold dl_from_um. repeat match goal with |- context [(f1 =? ?y)%N] => destruct (N.eqb_spec f1 y); [subst; reflexivity|] end. symmetry. apply N.leb_le. lia. }
  assert (UL : match ul_from_um f2 with Some _ => true | None => false end = ((f2 =? 0) || (4 <=? f2))%N).
  { unfold ul_from_um. destruct (N.eqb_spec f2 0); [reflexivity|]. destruct (N.ltb_spec f2 4), (N.leb_spec 4 f2); cbn; reflexivity || lia. }
  assert (K : (h = 0 \/ h = 1 \/ h = 2 \/ h = 3)%N) by lia.
  destruct K as [-> | [-> | [-> | ->]]]; cbn [N.eqb Pos.eqb negb orb andb]; unfold rbind, rret, rlift; cbn [aa_dl bind]; rewrite ?DL; try reflexivity.
  rewrite <- UL. destruct (ul_from_um f2) as [v|]; cbn [ok_or aa_dl bind]; rewrite ?DL; reflexivity.
Qed.
Lemma in_frame_18 i b u : wf b -> bpos b = bstart b -> mi_chan i = Aach -> tm_f (mi_time i) = 18%Z -> firstn 2 (window b) <> [true; true] ->
  exists out, ms_step (MeBlock i b) u = Ok (u, out) /\ Forall (fun o => o = MoTraffic (mi_time i) false) out.
Proof.
  intros W P C F H. destruct (aach_ok i b W P (fun _ => H)) as (out & E & _). exists out. split; [cbn [ms_step]; rewrite C, E; reflexivity|].
  unfold ms_aach in E. rewrite F in E. cbn [Z.eqb Pos.eqb] in E. destruct (a18_read b); inversion E; repeat constructor.
Qed.
Lemma sysinfo_start p rest : exists l, enc (si_layout p) ++ rest = true :: false :: false :: false :: l.
Proof. eexists. unfold si_layout. cbn [enc app]. reflexivity. Qed.
Lemma broadcast i b u p rest : wf b -> bpos b = bstart b -> mi_chan i = Bnch -> (mi_blk i = Block1 \/ mi_blk i = Block2) -> si_valid p = true -> window b = enc (si_layout p) ++ rest ->
  exists sdu, remaining sdu = rest /\ wf sdu /\ ms_step (MeBlock i b) u =
    Ok (u, match si_hyper p with Some h => if (Z.of_N h =? tm_h (mi_time i))%Z then [] else [MoTime (mk_time (tm_t (mi_time i)) (tm_f (mi_time i)) (tm_m (mi_time i)) (Z.of_N h))] | None => [] end ++ [MoSysinfo (mi_time i) sdu]).
Proof.
  intros W P C B V E. rewrite window_at in E by assumption. destruct (MacBroadcastProofs.si_carries p V) as (_ & R). specialize (R b rest W E).
  assert (Hn : length (enc (si_layout p)) <= length (remaining b)) by (rewrite E, app_length; lia).
  assert (W' : wf (adv b (length (enc (si_layout p))))) by (apply wf_adv; assumption).
  destruct (from_bitbuffer_pos_spec _ W') as (sdu & ES & WS & PS & _ & RS). exists sdu. split.
  { rewrite <- window_at by assumption. rewrite RS, remaining_adv by assumption. rewrite E, skipn_app, skipn_all, Nat.sub_diag. reflexivity. }
  split; [exact WS|].
  destruct (sysinfo_start p rest) as (l & EL). rewrite EL in E.
  assert (SCH : ms_sch (S (bend b - bstart b)) i (ms_df u) b = Ok (ms_df u, match si_hyper p with Some h => if (Z.of_N h =? tm_h (mi_time i))%Z then [] else [MoTime (mk_time (tm_t (mi_time i)) (tm_f (mi_time i)) (tm_m (mi_time i)) (Z.of_N h))] | None => [] end ++ [MoSysinfo (mi_time i) sdu])).
  { cbn [ms_sch]. rewrite peek_bits_spec by (assumption || lia). cbn [bind]. rewrite E. cbn [length Nat.leb firstn]. rewrite pdu_kind.
    unfold ms_broadcast. rewrite peek_posoffset_spec by (assumption || lia). rewrite E. cbn [length Nat.leb Nat.add skipn firstn bind unwrap]. change (bits_val [false; false] =? 0)%N with true. cbn [assert bind].
    rewrite R, ES. cbn [bind]. rewrite (no_more i b _ (ms_df u) (bend b - bstart b)) by auto. reflexivity. }
  cbn [ms_step]. rewrite C, SCH. destruct u. destruct B as [-> | ->]; reflexivity.
Qed.
(** * It never works out a scrambling code *)
Definition no_code (o : ms_out) : Prop := match o with MoScrambling _ _ => False | _ => True end.
Ltac peel H := match type of H with
  | Ok _ = Ok _ => injection H; clear H; intros; subst; repeat constructor
  | Panic = _ => discriminate H
  | Err _ = _ => discriminate H
  | bind ?m _ = _ => let E := fresh "E" in destruct m eqn:E; [cbn [bind] in H|discriminate H|discriminate H]; peel H
  | (let '(_, _) := ?x in _) = _ => destruct x; peel H
  | (if ?c then _ else _) = _ => let E := fresh "E" in destruct c eqn:E; peel H
  | match ?m with _ => _ end = _ => let E := fresh "E" in destruct m eqn:E; peel H
  | _ => idtac
  end.
Ltac codeless := cbn [snd]; repeat match goal with E : _ = Ok (_, _, ?l) |- Forall no_code ?l => revert E; clear; intros E; peel E end.
Lemma pdu_no_code i v d b x : ms_pdu i v d b = Ok x -> Forall no_code (snd x).
Proof.
  unfold ms_pdu. intros H. destruct (_ =? 0)%N; [unfold ms_resource in H; peel H; codeless|]. destruct (_ =? 1)%N.
  - destruct (_ =? 0)%N; [unfold ms_frag in H; peel H; codeless|unfold ms_end in H; peel H; codeless].
  - destruct (_ =? 2)%N; [|discriminate H]. unfold ms_broadcast in H. peel H; cbn [snd]; apply Forall_app; split; repeat constructor. all: destruct (si_hyper _); repeat constructor; destruct (_ =? _)%Z; repeat constructor.
Qed.
Lemma sch_no_code fuel : forall i d b x, ms_sch fuel i d b = Ok x -> Forall no_code (snd x).
Proof.
  induction fuel as [|n IH]; intros i d b x H; [discriminate H|]. cbn [ms_sch] in H. destruct (peek_bits b 3) as [[v|]| |]; cbn [bind] in H; try discriminate H; [|injection H as <-; constructor].
  destruct (ms_pdu i v d b) as [[[d1 b1] out]| |] eqn:E1; cbn [bind] in H; try discriminate H. apply pdu_no_code in E1. cbn [snd] in E1. destruct (get_len b1) as [m| |]; cbn [bind] in H; try discriminate H.
  destruct (_ && _)%bool; [|injection H as <-; exact E1]. destruct (ms_sch n i d1 b1) as [[d2 out2]| |] eqn:E2; cbn [bind] in H; try discriminate H. injection H as <-. apply IH in E2. apply Forall_app. split; assumption.
Qed.
Lemma aach_no_code i b out : ms_aach i b = Ok out -> Forall no_code out.
Proof. unfold ms_aach. intros H. peel H. Qed.
Lemma step_no_code e u u' out : ms_cc u = None -> ms_step e u = Ok (u', out) -> ms_cc u' = None /\ Forall no_code out.
Proof.
  intros C H. destruct e as [i b|t [[mcc mnc]|]]; cbn [ms_step] in H.
  - assert (SCH : (' (d, out0) <- ms_sch (S (bend b - bstart b)) i (ms_df u) b ;; Ok (mk_ums d (ms_mcc u) (ms_mnc u) (ms_cc u) (ms_code u), out0)) = Ok (u', out) -> ms_cc u' = None /\ Forall no_code out).
    { clear H. destruct (ms_sch _ i (ms_df u) b) as [[d o]| |] eqn:E; cbn [bind]; intros H; try discriminate H. injection H as <- <-. apply sch_no_code in E. split; [exact C|exact E]. }
    destruct (mi_chan i); try discriminate H; try (destruct (mi_blk i); try discriminate H; exact (SCH H)).
    + destruct (ms_aach i b) as [o| |] eqn:E; cbn [bind] in H; try discriminate H. injection H as <- <-. split; [exact C|]. now apply (aach_no_code i b).
    + destruct (sync_read b); try discriminate H; injection H as <- <-; (split; [exact C|constructor]).
  - unfold ms_update in H. cbn [ms_mcc ms_mnc ms_cc] in H. rewrite C in H. injection H as <- <-. split; [reflexivity|constructor].
  - injection H as <- <-. split; [exact C|constructor].
Qed.
Lemma run_no_code evs : forall u u' out, ms_cc u = None -> ms_run evs u = Ok (u', out) -> ms_cc u' = None /\ Forall no_code out.
Proof.
  induction evs as [|e evs IH]; intros u u' out C H; cbn [ms_run] in H; [injection H as <- <-; split; [exact C|constructor]|].
  destruct (ms_step e u) as [[u1 o1]| |] eqn:E1; cbn [bind] in H; try discriminate H. destruct (ms_run evs u1) as [[u2 o2]| |] eqn:E2; cbn [bind] in H; try discriminate H. injection H as <- <-.
  destruct (step_no_code e u u1 o1 C E1) as (C1 & F1). destruct (IH u1 u2 o2 C1 E2) as (C2 & F2). split; [exact C2|]. apply Forall_app. split; assumption.
Qed.
Lemma never_scrambles evs u out : ms_run evs ums_new = Ok (u, out) -> forall t code, ~ In (MoScrambling t code) out.
Proof. intros H t code HI. destruct (run_no_code evs ums_new u out eq_refl H) as (_ & F). rewrite Forall_forall in F. exact (F _ HI). Qed.

(** * Examples *)
Definition sig_slot (l : list bool) : Prop := (length l = 268 \/ length l = 124) /\ says_broadcast l = false.
Lemma decoded_fine t l : vtime t -> sig_slot l -> event_fine (decoded t (full_or_half l) l) /\ forall k, slots_on k [decoded t (full_or_half l) l] = if on_ts k t then [l] else [].
Proof.
  intros V [H NB]. unfold decoded, full_or_half. destruct (from_bitstr_spec l) as (b & E & W & P & _ & WN). rewrite E. cbn [event_fine slots_on flat_map signalling mi_chan mi_time mi_blk]. split.
  - split; [exact W|]. split; [exact P|]. split; [exact V|]. rewrite WN, NB. destruct (Nat.eqb_spec (length l) 124); (split; [|discriminate]); [assumption|]. destruct H; [assumption|contradiction].
  - intros k. rewrite app_nil_r, WN, NB, andb_true_r. destruct (length l =? 124); reflexivity.
Qed.
Definition listen (t : tdma_time) (slots : list (list bool)) : list ms_event := map (fun l => decoded t (full_or_half l) l) slots.
Lemma listen_fine t slots : vtime t -> Forall sig_slot slots -> Forall event_fine (listen t slots) /\ forall k, slots_on k (listen t slots) = if on_ts k t then slots else [].
Proof.
  intros V. induction 1 as [|l slots H F (IH1 & IH2)]; [split; [constructor|intros k; destruct (on_ts k t); reflexivity]|]. destruct (decoded_fine t l V H) as (D1 & D2). split; [constructor; assumption|].
  intros k. change (slots_on k (listen t (l :: slots))) with (signalling k (decoded t (full_or_half l) l) ++ slots_on k (listen t slots)). specialize (D2 k). unfold slots_on in D2. cbn [flat_map] in D2. rewrite app_nil_r in D2. rewrite D2, IH2. destruct (on_ts k t); reflexivity.
Qed.
Definition sdu_of (o : ms_out) : list (N * list bool) := match o with MoSdu _ b a _ _ => [(ad_ssi a, remaining b)] | _ => [] end.
Definition given (t : tdma_time) (slots : list (list bool)) : option (list (N * list bool)) :=
  match ms_run (listen t slots) ums_new with Ok (_, out) => Some (flat_map sdu_of out) | _ => None end.
Definition proper_len (l : list bool) : bool := ((length l =? 268) || (length l =? 124)) && negb (says_broadcast l).
Lemma proper_lens slots : forallb proper_len slots = true -> Forall sig_slot slots.
Proof. intros H. rewrite forallb_forall in H. apply Forall_forall. intros l HI. specialize (H l HI). apply andb_true_iff in H. destruct H as [H NB]. split; [|now apply negb_true_iff in NB]. apply orb_true_iff in H. destruct H as [H|H]; apply Nat.eqb_eq in H; auto. Qed.
Lemma uncuts slots : forallb (fun l => headers_whole (length l) l) slots = true -> Forall uncut slots.
Proof. intros H. rewrite forallb_forall in H. apply Forall_forall. exact H. Qed.
Definition ex_time : tdma_time := mk_time 1 1 1 0.
Definition ex_checks (u0 u : umac) (log : list um_entry) :=
  let slots := flat_map (slot_air 1) (flat_map (fun x => slots_in (snd (fst x))) log) in
  (run_hopes 1 DlFacts.ex_cell (UeTick false ex_time :: ex_evs 7) u0, forallb proper_len slots && forallb (fun l => headers_whole (length l) l) slots, given ex_time slots).
Lemma ex_listen : exists s log slots u out, bs_history DlFacts.ex_cell 1 s log /\ sends 1 (fun _ => idle_ts) (events_of log) = ex_wanted /\ Forall short ex_wanted /\ receives DlFacts.ex_cell 1 log slots /\
  Forall event_fine (listen ex_time slots) /\ slots_on 1 (listen ex_time slots) = slots /\ (forall j, j <> 1 -> slots_on j (listen ex_time slots) = []) /\ Forall uncut slots /\
  ms_run (listen ex_time slots) ums_new = Ok (u, out) /\ flat_map sdu_of out = [(2001%N, UlBlockFacts.ex_text 29); (1001%N, UlBlockFacts.ex_text 157)].
Proof.
  assert (X : exists u0 u log, umac_new DlFacts.ex_cell false = Ok u0 /\ um_run DlFacts.ex_cell (UeTick false ex_time :: ex_evs 7) u0 = Ok (u, log) /\ ex_checks u0 u log = (true, true, Some [(2001%N, UlBlockFacts.ex_text 29); (1001%N, UlBlockFacts.ex_text 157)])) by (apply ran; vm_compute; reflexivity).
  destruct X as (u0 & u & ulog & EN & E & S). unfold ex_checks in S. cbv zeta in S. assert (HH : forall (b b' c c' : bool) (x x' : option (list (N * list bool))), (b, c, x) = (b', c', x') -> b = b' /\ c = c' /\ x = x') by (intros; repeat split; congruence). apply HH in S. destruct S as (S1 & S2 & S3).
  destruct (ex_proper 7) as (P1 & P2 & P3 & _). assert (V : vtime ex_time) by (unfold vtime; cbn; lia).
  destruct (lift_history DlFacts.ex_cell 1 false u0 false ex_time (ex_evs 7) u ulog (le_n 1) eq_refl EN V P1 P2 P3 E S1) as (s & log & H & U & EV & R).
  revert S2 S3 R. generalize (flat_map (slot_air 1) (flat_map (fun x => slots_in (snd (fst x))) ulog)). intros slots S2 S3 R. apply andb_true_iff in S2. destruct S2 as (S2 & S4).
  destruct (listen_fine ex_time slots V (proper_lens slots S2)) as (L1 & L2). unfold given in S3. destruct (ms_run (listen ex_time slots) ums_new) as [[v out]| |] eqn:EM; try discriminate S3. injection S3 as S3.
  exists s, log, slots, v, out. split; [exact H|]. split; [rewrite EV; apply ex_sends|]. split; [constructor; [|constructor; [|constructor]]; unfold short; apply Nat.leb_le; vm_compute; reflexivity|]. split; [exact R|]. split; [exact L1|]. split; [exact (L2 1)|]. split; [|split; [exact (uncuts slots S4)|split; [exact EM|exact S3]]].
  intros j Hj. rewrite L2. unfold on_ts. change (ts_of ex_time) with 1. destruct (Nat.eqb_spec 1 j); [congruence|reflexivity].
Qed.
(** The acknowledgement that follows a message of 181 bits says that it ends within its own header: the mobile station
    goes down. *)
Definition cut_evs : list dl_event := [DvResource 1 (DlFacts.ex_hdr 1001 None) (DlFacts.ex_sdu 181) None; DvAck 1 (mk_addr 1002 false SsiSsi)] ++ repeat DvTick 8.
Lemma cut_fair : Forall (fair 1) cut_evs.
Proof.
  unfold cut_evs. apply Forall_app. split; [|apply DlFacts.ticks_fair]. constructor; [intros _; apply DlFacts.good_ex; [split; reflexivity|exact Logic.I|unfold not_cut; right; left; reflexivity]|]. constructor; [|constructor]. intros _. split; reflexivity.
Qed.
Lemma cut_down : exists log s, DlFacts.ex_run cut_evs = Ok (log, s) /\ Forall event_fine (listen ex_time (air 1 log)) /\ slots_on 1 (listen ex_time (air 1 log)) = air 1 log /\
  (exists got, hear (air 1 log) = Clear got None /\ Forall takeable got) /\ ms_run (listen ex_time (air 1 log)) ums_new = Panic.
Proof.
  destruct (DlFacts.ends_spec cut_evs (fun log _ => (forallb proper_len (air 1 log), match hear (air 1 log) with Clear got None => forallb (fun m => match mr_addr (fst m) with Some _ => true | None => false end && (mr_encmode (fst m) =? 0)%N && (length (snd m) <=? 200)) got | _ => false end,
    match ms_run (listen ex_time (air 1 log)) ums_new with Panic => true | _ => false end)) (true, true, true)) as (log & s & E & H); [vm_compute; reflexivity|].
  exists log, s. split; [exact E|]. clear E. revert H. generalize (air 1 log). clear. intros slots H. assert (HH : forall a b c a' b' c' : bool, (a, b, c) = (a', b', c') -> a = a' /\ b = b' /\ c = c') by (intros; repeat split; congruence). apply HH in H. destruct H as (H1 & H2 & H3).
  assert (V : vtime ex_time) by (unfold vtime; cbn; lia). destruct (listen_fine ex_time slots V (proper_lens slots H1)) as (L1 & L2). split; [exact L1|]. split; [exact (L2 1)|]. split.
  - destruct (hear slots) as [got [?|]| |]; try discriminate H2. exists got. split; [reflexivity|]. rewrite forallb_forall in H2. apply Forall_forall. intros m I. specialize (H2 m I). apply andb_true_iff in H2. destruct H2 as (H2 & H4). apply andb_true_iff in H2. destruct H2 as (H2 & H5).
    apply Nat.leb_le in H4. apply N.eqb_eq in H5. split; [destruct (mr_addr (fst m)); discriminate|]. split; [exact H5|]. apply (Nat.le_trans _ _ _ H4). apply Nat.leb_le. vm_compute. reflexivity.
  - destruct (ms_run (listen ex_time slots) ums_new); try discriminate H3. reflexivity.
Qed.
(** A message of 300 bits in two pieces, the second of which is lost; then the same message again, whole. *)
Definition lost_evs : list dl_event := DvResource 1 (DlFacts.ex_hdr 1001 None) (DlFacts.ex_sdu 300) None :: repeat DvTick 12.
Definition begun (u : umac_ms) : bool := existsb (fun y => Defrag.df_is_active (Defrag.df_st y)) (ms_df u).
Lemma ex_recovers : exists log s u0 out0 u out got, DlFacts.ex_run lost_evs = Ok (log, s) /\ ms_run (listen ex_time (firstn 2 (air 1 log))) ums_new = Ok (u0, out0) /\ begun u0 = true /\ out0 = [] /\
  Forall event_fine (listen ex_time (air 1 log)) /\ slots_on 1 (listen ex_time (air 1 log)) = air 1 log /\ Forall uncut (air 1 log) /\
  hear (air 1 log) = Clear got None /\ Forall takeable got /\
  ms_run (listen ex_time (air 1 log)) u0 = Ok (u, out) /\ map snd (flat_map sdu_of out) = [window (DlFacts.ex_sdu 300)].
Proof.
  destruct (DlFacts.ends_spec lost_evs (fun log _ => (forallb proper_len (air 1 log) && forallb (fun l => headers_whole (length l) l) (air 1 log), match hear (air 1 log) with Clear got None => forallb (fun m => match mr_addr (fst m) with Some _ => true | None => false end && (mr_encmode (fst m) =? 0)%N && (length (snd m) <=? 300)) got | _ => false end,
    match ms_run (listen ex_time (firstn 2 (air 1 log))) ums_new with Ok (u0, []) => (begun u0, match ms_run (listen ex_time (air 1 log)) u0 with Ok (_, out) => map snd (flat_map sdu_of out) | _ => [] end) | _ => (false, []) end)) (true, true, (true, [window (DlFacts.ex_sdu 300)]))) as (log & s & E & H); [vm_compute; reflexivity|].
  exists log, s. revert H. generalize (air 1 log) (window (DlFacts.ex_sdu 300)). intros slots text H.
  assert (HH : forall (a b c a' b' c' : bool) (x x' : list (list bool)), (a, b, (c, x)) = (a', b', (c', x')) -> a = a' /\ b = b' /\ c = c' /\ x = x') by (intros; repeat split; congruence).
  destruct (ms_run (listen ex_time (firstn 2 slots)) ums_new) as [[u0 [|]]| |]; try (apply HH in H; destruct H as (_ & _ & H & _); discriminate H).
  apply HH in H. destruct H as (H1 & H2 & H3 & H4). exists u0, []. destruct (ms_run (listen ex_time slots) u0) as [[u out]| |]; try discriminate H4. exists u, out.
  destruct (hear slots) as [got [?|]| |]; try discriminate H2. exists got.
  apply andb_true_iff in H1. destruct H1 as (H0 & H1).
  assert (V : vtime ex_time) by (unfold vtime; cbn; lia). destruct (listen_fine ex_time slots V (proper_lens slots H0)) as (L1 & L2).
  split; [exact E|]. split; [reflexivity|]. split; [exact H3|]. split; [reflexivity|]. split; [exact L1|]. split; [exact (L2 1)|]. split; [exact (uncuts slots H1)|]. split; [reflexivity|]. split; [|split; [reflexivity|exact H4]].
  rewrite forallb_forall in H2. apply Forall_forall. intros m I. specialize (H2 m I). apply andb_true_iff in H2. destruct H2 as (H2 & H6). apply andb_true_iff in H2. destruct H2 as (H2 & H5).
  apply Nat.leb_le in H6. apply N.eqb_eq in H5. split; [destruct (mr_addr (fst m)); discriminate|]. split; [exact H5|]. apply (Nat.le_trans _ _ _ H6). apply Nat.leb_le. vm_compute. reflexivity.
Qed.
(** A message that takes the place of speech brings it down: what fills the half slot up is no PDU. *)
Lemma stolen_down : exists r b, StealSpec.steal_ok r /\ UmacBs.stch_block false r = Ok b /\ length (window b) = 124 /\ ms_step (MeBlock (mk_msi ex_time Stch Block1 3) b) ums_new = Panic.
Proof.
  exists (StealFacts.ex_steal 31 StealFacts.ex_chan), (StealFacts.ex_blk 31). split; [apply StealFacts.ex_steal_ok; right; reflexivity|]. split; [vm_compute; reflexivity|]. split; vm_compute; reflexivity.
Qed.
(** * Broadcast and access assignment examples *)
Definition aach_bits (h f1 f2 : N) : list bool := BitsLib.bits_of 2 h ++ BitsLib.bits_of 6 f1 ++ BitsLib.bits_of 6 f2.
Lemma ex_aach : ms_run [decoded ex_time Aach (aach_bits 3 5 5); decoded ex_time Aach (aach_bits 3 3 0); decoded ex_time Aach (aach_bits 0 9 9); decoded ex_time Aach (aach_bits 3 5 2)] ums_new =
  Ok (ums_new, [MoTraffic ex_time true; MoTraffic ex_time false; MoTraffic ex_time false]).
Proof. vm_compute. reflexivity. Qed.
Definition frame18 : tdma_time := mk_time 1 18 1 0.
Lemma down_in_18 : ms_step (decoded frame18 Aach (aach_bits 3 0 0)) ums_new = Panic.
Proof. vm_compute. reflexivity. Qed.
(** what the base station of the examples broadcasts, in hyperframe 7, followed by 42 bits *)
Definition ex_si : mac_sysinfo :=
  let x := pc_si1 DlFacts.ex_pre in
  mk_si (si_carrier x) (si_band x) (si_offset x) (si_duplex x) (si_reverse x) (si_csch x) (si_txpwr x) (si_rxlev x) (si_accpar x) (si_dltimeout x) None (Some 7%N) (si_opt x) (si_tcf x) (si_aca x) (si_ext x).
Lemma ex_sysinfo : si_valid ex_si = true /\ length (enc (si_layout ex_si) ++ repeat true 42) = 124 /\
  match ms_step (decoded ex_time Bnch (enc (si_layout ex_si) ++ repeat true 42)) ums_new with
  | Ok (_, [MoTime t; MoSysinfo t' sdu]) => t = mk_time 1 1 1 7 /\ t' = ex_time /\ remaining sdu = repeat true 42
  | _ => False
  end.
Proof. split; [vm_compute; reflexivity|]. split; [vm_compute; reflexivity|]. vm_compute. repeat split. Qed.
