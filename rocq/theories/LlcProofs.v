(** The basic link keeps to the stop-and-wait discipline and acknowledges what it receives. *)
From Coq Require Import ZArith Permutation.
From Verif Require Import Base BitsLib AMap TdmaTime TdmaTimeProofs TxReceipt BitBuffer BitBufferProofs BitBufferOps Codec CodecProofs
  MacFields Fcs FcsProofs LlcPdus LlcPdusProofs Llc LlcSpec LlcBits.
Open Scope nat_scope.

Section L.
Context {P : Type}.
Implicit Types (l : list (lmsg P)) (ev : list (lev P)).

Definition mine (ssi : N) l : list (lmsg P) := filter (fun m => (ad_ssi (lm_addr m) =? ssi)%N) l.
Definition ev_for (ssi : N) (e : lev P) : bool :=
  match e with
  | LQueued _ m | LSubmit m => (ad_ssi (tq_addr m) =? ssi)%N
  | LMark a _ _ => (ad_ssi a =? ssi)%N
  | LToMle _ => false
  end.
Lemma link_step_other ssi k e : ev_for ssi e = false -> link_step ssi k (LDid e) = Some k.
Proof. destruct e; cbn [ev_for link_step]; intros E; rewrite ?E; reflexivity. Qed.
Lemma link_run_ev ssi ev : forall k, link_run ssi k (map LDid ev) = link_run ssi k (map LDid (filter (ev_for ssi) ev)).
Proof.
  induction ev as [|e ev IH]; intros k; [reflexivity|]. cbn [filter]. destruct (ev_for ssi e) eqn:E; cbn [map link_run].
  - destruct (link_step ssi k (LDid e)); [apply IH|reflexivity].
  - rewrite link_step_other by assumption. apply IH.
Qed.
Lemma link_run_app ssi a b : forall k, link_run ssi k (a ++ b) = match link_run (P := P) ssi k a with Some k => link_run ssi k b | None => None end.
Proof. induction a as [|i a IH]; intros k; [reflexivity|]. cbn [app link_run]. destruct (link_step ssi k i); [apply IH|reflexivity]. Qed.

(** ** Messages *)
Definition msg_ok (m : lmsg P) : Prop :=
  tq_reporter (lm_buf m) = Some (lm_id m) /\ tq_addr (lm_buf m) = lm_addr m /\
  numbered (req_bits (lm_buf m)) = Some (lm_ns m =? 1)%N /\ (lm_ns m < 2)%N /\
  tx_expects_ack (lm_rep m) = true /\ tx_byte (lm_rep m) <= 2 /\ (lm_count m <= 3)%N /\
  match lm_done m with Some d => vtime d /\ lm_submitted m <> None /\ tx_byte (lm_rep m) <> 0 | None => True end /\
  match lm_submitted m with None => lm_count m = 0%N /\ tx_byte (lm_rep m) = 0 | Some _ => True end.
Lemma unsub_done m : msg_ok m -> lm_submitted m = None -> lm_done m = None.
Proof. intros (_ & _ & _ & _ & _ & _ & _ & D & _) S. destruct (lm_done m); [|reflexivity]. destruct D as (_ & D & _). contradiction. Qed.

Lemma done_iff m : msg_ok m -> (tx_is_transmitted (lm_rep m) || tx_is_discarded (lm_rep m))%bool = negb (tx_byte (lm_rep m) =? 0).
Proof.
  intros (_ & _ & _ & _ & _ & B & _). unfold tx_is_transmitted, tx_is_discarded. cbn [tx_raw].
  destruct (tx_byte (lm_rep m)) as [|[|[|n]]]; [reflexivity..|lia].
Qed.
Lemma tdiff_due now d : vtime now -> vtime d -> exists a, tdiff now d = Ok a /\ (T251_SENDER_RETRY_TIMER <=? a mod 2 ^ 32)%Z = (16 <=? slots_from d now)%Z.
Proof.
  intros Vn Vd. destruct (diff_spec now d Vn Vd) as (a & E & R & A). exists a. split; [assumption|].
  assert (to_int now = (to_int d + a) mod TIME_INT_WRAP)%Z as T.
  { rewrite <- A at 1. unfold add_timeslots. apply to_from_int. }
  unfold slots_from. rewrite T. unfold T251_SENDER_RETRY_TIMER, frames. unfold TIME_INT_WRAP in *.
  assert (forall x y b, (x = true <-> y = true) -> x = b -> y = b) as _ by (intros [] [] []; intuition congruence).
  destruct (Z.leb_spec (4 * 4) (a mod 2 ^ 32)); destruct (Z.leb_spec 16 (((to_int d + a) mod (4 * 18 * 60 * 65536) - to_int d) mod (4 * 18 * 60 * 65536))); lia.
Qed.

(** Matching a message with the outstanding one of the automaton. *)
Definition os_of (m : lmsg P) : outstanding :=
  mk_os (lm_id m) (req_bits (lm_buf m)) (N.to_nat (lm_count m) + 1) (negb (tx_byte (lm_rep m) =? 0)) (lm_done m).
Definition wait_of (m : lmsg P) : N * list bool := (lm_id m, req_bits (lm_buf m)).
Definition unsub (m : lmsg P) : Prop := lm_submitted m = None.
(** [l] is the list of one radio's messages. *)
Definition split_ok l (cur : option (lmsg P)) rest : Prop :=
  l = match cur with Some m => m :: rest | None => rest end /\ Forall unsub rest /\ match cur with Some m => lm_submitted m <> None | None => True end.
Definition matches (now : tdma_time) l (k : link) : Prop :=
  exists cur rest, split_ok l cur rest /\ k = mk_link now (map wait_of rest) (option_map os_of cur) false.

(** ** One message at the end of a tick *)
Definition pre_notice (now : tdma_time) (m : lmsg P) : lmsg P :=
  match lm_done m with
  | None => if tx_is_transmitted (lm_rep m) || tx_is_discarded (lm_rep m)
            then mk_lmsg (lm_id m) (lm_addr m) (lm_ns m) (lm_first m) (lm_submitted m) (Some now) (lm_rep m) (lm_buf m) (lm_count m)
            else m
  | Some _ => m
  end.
Definition resubmitted (now : tdma_time) (m : lmsg P) : lmsg P :=
  mk_lmsg (lm_id m) (lm_addr m) (lm_ns m) (lm_first m) (Some (forward_to_timeslot now (tm_t (lm_first m)))) None (mk_tx (tx_expects_ack (lm_rep m)) 0) (lm_buf m) (lm_count m).
Definition bump (m : lmsg P) : lmsg P :=
  mk_lmsg (lm_id m) (lm_addr m) (lm_ns m) (lm_first m) (lm_submitted m) (lm_done m) (lm_rep m) (lm_buf m) (lm_count m + 1).
Definition submit_evs (now : tdma_time) (m : lmsg P) : list (lev P) :=
  let b := lm_buf m in
  [LMark (lm_addr m) (lm_id m) Reset;
   LSubmit (mk_tmareq (forward_to_timeslot now (tm_t (lm_first m))) (tq_pdu b) (tq_addr b) (tq_steal b) (tq_chan b) (tq_reporter b) (tq_info b))].
Lemma pre_notice_ok now m : vtime now -> msg_ok m -> msg_ok (pre_notice now m) /\ lm_submitted (pre_notice now m) = lm_submitted m /\ lm_addr (pre_notice now m) = lm_addr m /\
  lm_id (pre_notice now m) = lm_id m /\ os_of (pre_notice now m) = noticed now (os_of m) /\ lm_rep (pre_notice now m) = lm_rep m.
Proof.
  intros V M. unfold pre_notice. rewrite (done_iff m M).
  destruct (lm_done m) as [d|] eqn:D; [split; [assumption|]; unfold noticed, os_of; rewrite D; auto|].
  destruct (Nat.eqb_spec (tx_byte (lm_rep m)) 0) as [Z|Z]; cbn [negb].
  - split; [assumption|]. repeat (split; [reflexivity|]). split; [|reflexivity]. unfold noticed, os_of. cbn [os_done os_reported]. rewrite D, Z. reflexivity.
  - destruct M as (M1 & M2 & M3 & M4 & M5 & M6 & M7 & M8 & M9). split.
    + unfold msg_ok. cbn [lm_id lm_addr lm_ns lm_first lm_submitted lm_done lm_rep lm_buf lm_count].
      repeat (split; [assumption|]). split; [|assumption]. split; [assumption|]. split; [|assumption]. intros S. rewrite S in M9. tauto.
    + repeat (split; [reflexivity|]). split; [|reflexivity]. unfold noticed, os_of. cbn [os_done os_reported os_id os_bits os_count lm_id lm_buf lm_count lm_rep lm_done]. rewrite D.
      destruct (Nat.eqb_spec (tx_byte (lm_rep m)) 0); [contradiction|]. reflexivity.
Qed.
Lemma retransmit_one_eq now m : vtime now -> msg_ok m ->
  retransmit_one now m =
    (let m1 := pre_notice now m in
     if due now (os_of m1) then
       if (lm_count m1 <? 3)%N then Ok (submit_evs now (bump m1), resubmitted now (bump m1), false) else Ok ([], m1, true)
     else Ok ([], m1, false)).
Proof.
  intros V M. unfold retransmit_one. fold (pre_notice now m). cbv zeta.
  destruct (pre_notice_ok now m V M) as (M1 & _). set (m1 := pre_notice now m) in *. clearbody m1.
  unfold due, os_of. cbn [os_done].
  destruct (lm_done m1) as [d|] eqn:D; [|reflexivity].
  assert (Vd : vtime d) by (destruct M1 as (_ & _ & _ & _ & _ & _ & _ & Q & _); rewrite D in Q; tauto).
  destruct (tdiff_due now d V Vd) as (a & -> & E). cbn [bind]. rewrite E. rewrite <- D. reflexivity.
Qed.
Lemma resubmit_ok now m : msg_ok m -> (lm_count m <= 2)%N -> msg_ok (resubmitted now (bump m)).
Proof.
  intros (M1 & M2 & M3 & M4 & M5 & M6 & M7 & M8 & M9) C. unfold msg_ok, resubmitted, bump. cbn [lm_id lm_addr lm_ns lm_first lm_submitted lm_done lm_rep lm_buf lm_count tx_expects_ack tx_byte].
  repeat (split; [assumption || lia|]). exact I.
Qed.
Lemma first_ok now m : msg_ok m -> msg_ok (resubmitted now m).
Proof.
  intros (M1 & M2 & M3 & M4 & M5 & M6 & M7 & M8 & M9). unfold msg_ok, resubmitted. cbn [lm_id lm_addr lm_ns lm_first lm_submitted lm_done lm_rep lm_buf lm_count tx_expects_ack tx_byte].
  repeat (split; [assumption || lia|]). exact I.
Qed.

(** ** The calls touch one radio's messages as if the others did not exist *)
Lemma retransmit_one_facts now m e m' g : msg_ok m -> retransmit_one now m = Ok (e, m', g) ->
  lm_addr m' = lm_addr m /\ lm_id m' = lm_id m /\ Forall (fun x => ev_for (ad_ssi (lm_addr m)) x = true) e /\ (forall s, s <> ad_ssi (lm_addr m) -> Forall (fun x => ev_for s x = false) e).
Proof.
  intros M E. unfold retransmit_one in E. fold (pre_notice now m) in E. cbv zeta in E.
  assert (X : lm_addr (pre_notice now m) = lm_addr m /\ lm_id (pre_notice now m) = lm_id m /\ lm_buf (pre_notice now m) = lm_buf m).
  { unfold pre_notice. destruct (lm_done m); [auto|]. destruct (_ || _)%bool; auto. }
  destruct X as (X1 & X2 & X3). set (m1 := pre_notice now m) in *. clearbody m1.
  destruct (lm_done m1) as [d|]; [|injection E as <- <- <-; auto].
  destruct (tdiff now d) as [a| |]; cbn [bind] in E; try discriminate.
  destruct (_ <=? _)%Z; [|injection E as <- <- <-; auto].
  destruct (_ <? _)%N; [|injection E as <- <- <-; auto].
  cbn [submit_acked tx_reset bind lm_rep lm_buf lm_id lm_addr] in E. injection E as <- <- <-. cbn [lm_addr lm_id].
  destruct M as (_ & M2 & _). split; [assumption|]. split; [assumption|]. split.
  - repeat constructor; cbn [ev_for tq_addr]; rewrite ?X1, ?X3, ?M2; apply N.eqb_refl.
  - intros s Hs. repeat constructor; cbn [ev_for tq_addr]; rewrite ?X1, ?X3, ?M2; now apply N.eqb_neq, not_eq_sym.
Qed.
Lemma filter_all {A} (f : A -> bool) x : Forall (fun e => f e = true) x -> filter f x = x.
Proof. induction 1 as [|e x E F IH]; [reflexivity|]. cbn [filter]. now rewrite E, IH. Qed.
Lemma filter_none {A} (f : A -> bool) x : Forall (fun e => f e = false) x -> filter f x = [].
Proof. induction 1 as [|e x E F IH]; [reflexivity|]. cbn [filter]. now rewrite E, IH. Qed.
Lemma retransmit_all_mine now ssi : forall l e l' r, Forall msg_ok l -> retransmit_all now l = Ok (e, l', r) ->
  retransmit_all now (mine ssi l) = Ok (filter (ev_for ssi) e, mine ssi l', filter (fun x => (x =? ssi)%N) r).
Proof.
  induction l as [|m l IH]; intros e l' r F E; [injection E as <- <- <-; reflexivity|]. cbn [retransmit_all] in E.
  destruct (retransmit_one now m) as [[[e1 m1] g]| |] eqn:E1; cbn [bind] in E; try discriminate.
  destruct (retransmit_all now l) as [[[e2 l2] r2]| |] eqn:E2; cbn [bind] in E; try discriminate. injection E as <- <- <-.
  specialize (IH _ _ _ (Forall_inv_tail F) eq_refl). destruct (retransmit_one_facts _ _ _ _ _ (Forall_inv F) E1) as (A1 & _ & A2 & A3).
  unfold mine in *. cbn [filter]. rewrite A1. rewrite filter_app. destruct (N.eqb_spec (ad_ssi (lm_addr m)) ssi) as [Q|Q].
  - cbn [retransmit_all]. rewrite E1. cbn [bind]. rewrite IH. cbn [bind]. rewrite <- Q at 2. rewrite (filter_all _ e1 A2). do 2 f_equal.
    destruct g; [|reflexivity]. cbn [filter]. rewrite ?A1. rewrite (proj2 (N.eqb_eq _ _) Q). reflexivity.
  - rewrite (filter_none _ e1 (A3 ssi (not_eq_sym Q))). cbn [app]. rewrite IH. do 2 f_equal. destruct g; [|reflexivity]. cbn [filter]. rewrite ?A1. rewrite (proj2 (N.eqb_neq _ _) Q). reflexivity.
Qed.

Lemma take_expected_split ssi : forall l m rest, take_expected ssi l = Some (m, rest) ->
  exists l1 l2, l = l1 ++ m :: l2 /\ rest = l1 ++ l2 /\ ad_ssi (lm_addr m) = ssi /\ lm_submitted m <> None /\
    Forall (fun x => ad_ssi (lm_addr x) = ssi -> unsub x) l1.
Proof.
  induction l as [|x l IH]; intros m rest E; [discriminate|]. cbn [take_expected] in E.
  destruct ((ad_ssi (lm_addr x) =? ssi)%N && match lm_submitted x with Some _ => true | None => false end)%bool eqn:C.
  - injection E as <- <-. apply andb_prop in C. destruct C as (C1 & C2). apply N.eqb_eq in C1. exists [], l. repeat (split; [reflexivity|]). split; [assumption|]. split; [|constructor].
    destruct (lm_submitted x); [discriminate|discriminate C2].
  - destruct (take_expected ssi l) as [[y t]|]; [|discriminate]. injection E as <- <-. destruct (IH _ _ eq_refl) as (l1 & l2 & -> & -> & A & B & D).
    exists (x :: l1), l2. repeat (split; [reflexivity|]). split; [assumption|]. split; [assumption|]. constructor; [|assumption].
    intros Q. rewrite (proj2 (N.eqb_eq _ _) Q) in C. unfold unsub. destruct (lm_submitted x); [discriminate C|reflexivity].
Qed.
Lemma mine_app ssi l1 l2 : mine ssi (l1 ++ l2) = mine ssi l1 ++ mine ssi l2.
Proof. apply filter_app. Qed.
Lemma take_expected_mine ssi s l : take_expected s (mine ssi l) =
  if (s =? ssi)%N then match take_expected s l with Some (m, r) => Some (m, mine ssi r) | None => None end else None.
Proof.
  induction l as [|x l IH]; [cbn; destruct (s =? ssi)%N; reflexivity|]. unfold mine in *. cbn [filter].
  destruct (N.eqb_spec (ad_ssi (lm_addr x)) ssi) as [Q|Q].
  - cbn [take_expected]. rewrite IH. destruct (N.eqb_spec s ssi) as [Es|Es].
    + subst s. rewrite (proj2 (N.eqb_eq _ _) Q). cbn [andb]. destruct (lm_submitted x); [reflexivity|].
      destruct (take_expected ssi l) as [[m r]|]; [|reflexivity]. cbn [filter]. rewrite (proj2 (N.eqb_eq _ _) Q). reflexivity.
    + destruct (N.eqb_spec (ad_ssi (lm_addr x)) s); [congruence|]. reflexivity.
  - rewrite IH. cbn [take_expected]. destruct (N.eqb_spec s ssi) as [Es|Es]; [|reflexivity].
    destruct (N.eqb_spec (ad_ssi (lm_addr x)) s); [congruence|]. cbn [andb]. destruct (take_expected s l) as [[m r]|]; [|reflexivity]. cbn [filter].
    rewrite (proj2 (N.eqb_neq _ _) Q). reflexivity.
Qed.
Lemma mine_out ssi l1 m l2 : ad_ssi (lm_addr m) <> ssi -> mine ssi (l1 ++ m :: l2) = mine ssi (l1 ++ l2).
Proof. intros H. rewrite !mine_app. cbn [mine filter]. rewrite (proj2 (N.eqb_neq _ _) H). reflexivity. Qed.
Lemma remove_lost_mine ssi : forall r l e l', remove_lost r l = Ok (e, l') ->
  remove_lost (filter (fun x => (x =? ssi)%N) r) (mine ssi l) = Ok (filter (ev_for ssi) e, mine ssi l').
Proof.
  induction r as [|s r IH]; intros l e l' E; [injection E as <- <-; reflexivity|]. cbn [remove_lost] in E.
  destruct (take_expected s l) as [[m l1]|] eqn:T; cbn [unwrap bind] in E; try discriminate.
  destruct (tx_mark_lost (lm_rep m)) as [rp| |] eqn:X; cbn [bind] in E; try discriminate.
  destruct (remove_lost r l1) as [[e2 l2]| |] eqn:R; cbn [bind] in E; try discriminate. injection E as <- <-. specialize (IH _ _ _ R).
  destruct (take_expected_split _ _ _ _ T) as (a & b & -> & -> & Q & _ & _).
  cbn [filter ev_for]. rewrite Q. destruct (N.eqb_spec s ssi) as [Es|Es].
  - cbn [remove_lost]. rewrite take_expected_mine. rewrite (proj2 (N.eqb_eq _ _) Es), T. cbn [unwrap bind]. rewrite X. cbn [bind]. rewrite IH. reflexivity.
  - rewrite mine_out by congruence. exact IH.
Qed.
Lemma existsb_filter ssi bl : existsb (N.eqb ssi) (filter (fun x => (x =? ssi)%N) bl) = existsb (N.eqb ssi) bl.
Proof.
  induction bl as [|x bl IH]; [reflexivity|]. cbn [filter existsb]. rewrite (N.eqb_sym ssi x). destruct (N.eqb_spec x ssi) as [Q|Q]; cbn [existsb orb]; [|exact IH].
  subst x. rewrite N.eqb_refl. reflexivity.
Qed.
Lemma submit_free_mine now ssi : forall l bl e l', Forall msg_ok l -> submit_free_loop now bl l = Ok (e, l') ->
  submit_free_loop now (filter (fun x => (x =? ssi)%N) bl) (mine ssi l) = Ok (filter (ev_for ssi) e, mine ssi l').
Proof.
  induction l as [|m l IH]; intros bl e l' F E; [injection E as <- <-; reflexivity|]. cbn [submit_free_loop] in E. cbv zeta in E.
  pose proof (Forall_inv F) as (_ & M2 & _). apply Forall_inv_tail in F. unfold mine in *. cbn [filter].
  destruct (lm_submitted m) as [tm|] eqn:S.
  - destruct (submit_free_loop now (ad_ssi (lm_addr m) :: bl) l) as [[e2 l2]| |] eqn:E2; cbn [bind] in E; try discriminate. injection E as <- <-. specialize (IH _ _ _ F E2).
    cbn [filter] in IH |- *. destruct (N.eqb_spec (ad_ssi (lm_addr m)) ssi) as [Q|Q]; [|exact IH].
    cbn [submit_free_loop]. cbv zeta. rewrite S. rewrite IH. reflexivity.
  - destruct (existsb (N.eqb (ad_ssi (lm_addr m))) bl) eqn:B.
    + destruct (submit_free_loop now bl l) as [[e2 l2]| |] eqn:E2; cbn [bind] in E; try discriminate. injection E as <- <-. specialize (IH _ _ _ F E2).
      cbn [filter]. destruct (N.eqb_spec (ad_ssi (lm_addr m)) ssi) as [Q|Q]; [|exact IH]. cbn [submit_free_loop]. cbv zeta. rewrite S. rewrite Q in B |- *. rewrite existsb_filter, B. rewrite IH. reflexivity.
    + cbn [submit_acked tx_reset bind] in E. destruct (submit_free_loop now (ad_ssi (lm_addr m) :: bl) l) as [[e2 l2]| |] eqn:E2; cbn [bind] in E; try discriminate. injection E as <- <-. specialize (IH _ _ _ F E2).
      cbn [filter lm_addr ev_for tq_addr] in IH |- *. rewrite M2. destruct (N.eqb_spec (ad_ssi (lm_addr m)) ssi) as [Q|Q]; [|exact IH].
      cbn [submit_free_loop]. cbv zeta. rewrite S. rewrite Q in B |- *. rewrite existsb_filter, B. cbn [submit_acked tx_reset bind]. rewrite Q in IH. rewrite IH. rewrite ?M2. reflexivity.
Qed.
Lemma mark_all_mine ssi id op : forall l l', mark_all id op l = Ok l' -> mark_all id op (mine ssi l) = Ok (mine ssi l').
Proof.
  induction l as [|m l IH]; intros l' E; [injection E as <-; reflexivity|]. cbn [mark_all] in E.
  destruct (if (lm_id m =? id)%N then _ else _) as [m1| |] eqn:E1; cbn [bind] in E; try discriminate.
  destruct (mark_all id op l) as [l1| |]; cbn [bind] in E; try discriminate. injection E as <-. specialize (IH _ eq_refl).
  assert (A : lm_addr m1 = lm_addr m).
  { destruct (lm_id m =? id)%N; [|congruence]. destruct (tx_apply op (lm_rep m)); cbn [bind] in E1; try discriminate. injection E1 as <-. reflexivity. }
  unfold mine in *. cbn [filter]. rewrite A. destruct (ad_ssi (lm_addr m) =? ssi)%N; [|exact IH]. cbn [mark_all]. rewrite E1. cbn [bind]. rewrite IH. reflexivity.
Qed.

(** ** One link at the end of a tick *)
Lemma retransmit_rest now : forall l, Forall msg_ok l -> Forall unsub l -> retransmit_all now l = Ok ([], l, []).
Proof.
  induction l as [|m l IH]; intros F U; [reflexivity|]. cbn [retransmit_all]. pose proof (Forall_inv F) as M. pose proof (Forall_inv U) as Um.
  assert (retransmit_one now m = Ok ([], m, false)) as ->.
  { unfold retransmit_one. pose proof (unsub_done m M Um) as D. destruct M as (_ & _ & _ & _ & _ & _ & _ & _ & M9). unfold unsub in Um. rewrite Um in M9. destruct M9 as (_ & Z).
    rewrite D. unfold tx_is_transmitted, tx_is_discarded. rewrite Z. cbn [tx_raw Nat.leb Nat.eqb orb]. rewrite D. reflexivity. }
  cbn [bind]. rewrite IH; [reflexivity|exact (Forall_inv_tail F)|exact (Forall_inv_tail U)].
Qed.
Lemma submit_free_blocked now ssi : forall l bl, Forall unsub l -> Forall (fun m => ad_ssi (lm_addr m) = ssi) l -> existsb (N.eqb ssi) bl = true -> submit_free_loop now bl l = Ok ([], l).
Proof.
  induction l as [|m l IH]; intros bl U A B; [reflexivity|]. cbn [submit_free_loop]. cbv zeta. pose proof (Forall_inv U) as Um. unfold unsub in Um. rewrite Um.
  rewrite (Forall_inv A), B. rewrite (IH bl (Forall_inv_tail U) (Forall_inv_tail A) B). reflexivity.
Qed.
Lemma bits_eqb_refl x : bits_eqb x x = true.
Proof. unfold bits_eqb. destruct (list_eq_dec _ x x); [reflexivity|contradiction]. Qed.

Lemma submit_run now ssi m k : msg_ok m -> ad_ssi (lm_addr m) = ssi ->
  match link_submit (P := P) k (mk_tmareq (forward_to_timeslot now (tm_t (lm_first m))) (tq_pdu (lm_buf m)) (tq_addr (lm_buf m)) (tq_steal (lm_buf m)) (tq_chan (lm_buf m)) (tq_reporter (lm_buf m)) (tq_info (lm_buf m))) with
  | Some k' => link_run ssi k (map LDid (submit_evs now m)) = Some k' | None => True end.
Proof.
  intros (M1 & M2 & M3 & _) A. destruct (link_submit k _) as [k'|] eqn:E; [|exact I].
  cbn [submit_evs map link_run link_step]. rewrite A, N.eqb_refl. cbn [tq_addr]. rewrite M2, A, N.eqb_refl. cbn [andb].
  unfold req_bits in M3 |- *. cbn [tq_pdu]. rewrite M3. rewrite M2 in E. rewrite E. reflexivity.
Qed.
Lemma free_link now ssi l k : Forall msg_ok l -> Forall (fun m => ad_ssi (lm_addr m) = ssi) l -> Forall unsub l -> k = mk_link now (map wait_of l) None false ->
  exists e l' k', submit_free_loop now [] l = Ok (e, l') /\ link_run ssi k (map LDid e) = Some k' /\ matches now l' k' /\
    Forall msg_ok l' /\ (lk_current k' = None -> lk_waiting k' = []) /\ (forall o, lk_current k' = Some o -> due now o = false).
Proof.
  intros F A U ->. destruct l as [|m l].
  - exists [], [], (mk_link now [] None false). split; [reflexivity|]. split; [reflexivity|]. split; [exists None, []; repeat split; constructor|].
    split; [constructor|]. split; [reflexivity|]. discriminate.
  - pose proof (Forall_inv F) as M. pose proof (Forall_inv A) as Am. pose proof (Forall_inv U) as Um. pose proof (unsub_done m M Um) as D. unfold unsub in Um.
    exists (submit_evs now m), (resubmitted now m :: l), (mk_link now (map wait_of l) (Some (os_of (resubmitted now m))) false).
    split; [|split; [|split; [|split; [|split]]]].
    + cbn [submit_free_loop]. cbv zeta. rewrite Um. cbn [existsb submit_acked tx_reset bind]. rewrite Am.
      rewrite (submit_free_blocked now ssi l [ssi]); [reflexivity|exact (Forall_inv_tail U)|exact (Forall_inv_tail A)|cbn; now rewrite N.eqb_refl].
    + pose proof (submit_run now ssi m (mk_link now (map wait_of (m :: l)) None false) M Am) as H.
      unfold link_submit in H at 1. cbn [lk_current lk_waiting map wait_of lk_now lk_owes] in H. pose proof M as (M1 & M2 & M3 & M4 & M5 & M6 & M7 & M8 & M9).
      unfold reporter_is, req_bits in H. cbn [tq_reporter tq_pdu] in H. rewrite M1, N.eqb_refl in H. rewrite bits_eqb_refl in H. cbn [andb] in H. etransitivity; [exact H|].
      rewrite Um in M9. destruct M9 as (M9 & M10). unfold os_of, resubmitted, req_bits. cbn [lm_id lm_buf lm_count lm_rep lm_done tx_byte Nat.eqb negb]. rewrite M9. reflexivity.
    + exists (Some (resubmitted now m)), l. split; [|reflexivity]. split; [reflexivity|]. split; [exact (Forall_inv_tail U)|]. discriminate.
    + constructor; [now apply first_ok|exact (Forall_inv_tail F)].
    + discriminate.
    + intros o E. injection E as <-. reflexivity.
Qed.
Lemma tick_link now ssi l k e1 l1 r e2 l2 e3 l3 : vtime now -> Forall msg_ok l -> Forall (fun m => ad_ssi (lm_addr m) = ssi) l -> matches now l k ->
  retransmit_all now l = Ok (e1, l1, r) -> remove_lost r l1 = Ok (e2, l2) -> submit_free_loop now [] l2 = Ok (e3, l3) ->
  exists k', link_run ssi (link_call (P := P) ssi k LTickEnd) (map LDid (e1 ++ e2 ++ e3)) = Some k' /\ matches now l3 k' /\ Forall msg_ok l3 /\
    (lk_current k' = None -> lk_waiting k' = []) /\ (forall o, lk_current k' = Some o -> due now o = false).
Proof.
  intros V F A (cur & rest & (S1 & S2 & S3) & ->) E1 E2 E3. unfold link_call. cbn [lk_now lk_waiting lk_current].
  destruct cur as [m|]; cbn [option_map].
  2:{ subst l. rewrite (retransmit_rest now rest F S2) in E1. injection E1 as <- <- <-. injection E2 as <- <-. cbn [app].
      destruct (free_link now ssi rest _ F A S2 eq_refl) as (e & l' & k' & E & H). rewrite E in E3. injection E3 as <- <-. exists k'. exact H. }
  subst l. pose proof (Forall_inv F) as M. apply Forall_inv_tail in F. pose proof (Forall_inv A) as Am. apply Forall_inv_tail in A.
  destruct (pre_notice_ok now m V M) as (M1 & Q2 & Q3 & Q4 & Q5 & Q6).
  cbn [retransmit_all] in E1. rewrite (retransmit_one_eq now m V M) in E1. cbv zeta in E1. rewrite <- Q5.
  assert (Am1 : ad_ssi (lm_addr (pre_notice now m)) = ssi) by (rewrite Q3; assumption).
  assert (Sm1 : lm_submitted (pre_notice now m) <> None) by (rewrite Q2; assumption).
  set (m1 := pre_notice now m) in *. clearbody m1. clear Q2 Q3 Q4 Q5 Q6 S3 M Am m.
  destruct (due now (os_of m1)) eqn:Du.
  - destruct (N.ltb_spec (lm_count m1) 3) as [C|C]; cbn [bind] in E1; rewrite (retransmit_rest now rest F S2) in E1; cbn [bind] in E1; injection E1 as <- <- <-.
    + injection E2 as <- <-. cbn [submit_free_loop resubmitted lm_submitted lm_addr bump] in E3. cbv zeta in E3. rewrite Am1 in E3.
      rewrite (submit_free_blocked now ssi rest [ssi]) in E3; [|assumption|assumption|cbn; now rewrite N.eqb_refl]. cbn [bind] in E3. injection E3 as <- <-. rewrite !app_nil_r.
      exists (mk_link now (map wait_of rest) (Some (os_of (resubmitted now (bump m1)))) false). split; [|split; [|split; [|split]]].
      * pose proof (submit_run now ssi (bump m1) (mk_link now (map wait_of rest) (Some (os_of m1)) false)) as H.
        pose proof M1 as (N1 & N2 & N3 & N4 & N5 & N6 & N7 & N8 & N9).
        assert (HH : match link_submit (P := P) (mk_link now (map wait_of rest) (Some (os_of m1)) false) (mk_tmareq (forward_to_timeslot now (tm_t (lm_first (bump m1)))) (tq_pdu (lm_buf (bump m1))) (tq_addr (lm_buf (bump m1))) (tq_steal (lm_buf (bump m1))) (tq_chan (lm_buf (bump m1))) (tq_reporter (lm_buf (bump m1))) (tq_info (lm_buf (bump m1)))) with
          | Some k' => link_run ssi (mk_link now (map wait_of rest) (Some (os_of m1)) false) (map LDid (submit_evs now (bump m1))) = Some k' | None => True end).
        { apply H; [|exact Am1]. unfold msg_ok, bump. cbn [lm_id lm_addr lm_ns lm_first lm_submitted lm_done lm_rep lm_buf lm_count].
          repeat (split; [assumption || lia|]). destruct (lm_submitted m1); [exact I|contradiction]. }
        clear H. unfold link_submit in HH at 1. cbn [lk_current lk_waiting lk_now lk_owes] in HH. rewrite Du in HH.
        unfold reporter_is, req_bits in HH. cbn [tq_reporter tq_pdu bump lm_buf os_of os_id os_bits os_count] in HH. rewrite N1, N.eqb_refl in HH. unfold req_bits in HH. rewrite bits_eqb_refl in HH. cbn [andb] in HH.
        destruct (Nat.ltb_spec (N.to_nat (lm_count m1) + 1) 4); [|lia]. etransitivity; [exact HH|].
        unfold os_of, resubmitted, bump, req_bits. cbn [lm_id lm_buf lm_count lm_rep lm_done tx_byte Nat.eqb negb]. do 4 f_equal. lia.
      * exists (Some (resubmitted now (bump m1))), rest. split; [|reflexivity]. split; [reflexivity|]. split; [assumption|]. discriminate.
      * constructor; [|assumption]. apply resubmit_ok; [assumption|lia].
      * discriminate.
      * intros o E. injection E as <-. reflexivity.
    + cbn [remove_lost take_expected] in E2. rewrite N.eqb_refl in E2. destruct (lm_submitted m1) as [tt0|] eqn:Sb; [|contradiction]. cbn [andb unwrap bind] in E2.
      destruct (tx_mark_lost (lm_rep m1)) as [rp| |]; cbn [bind] in E2; try discriminate. injection E2 as <- <-.
      destruct (free_link now ssi rest _ F A S2 eq_refl) as (e & l' & k' & E & H1 & H2). rewrite E in E3. injection E3 as <- <-. exists k'. split; [|exact H2].
      pose proof M1 as (N1 & N2 & N3 & N4 & N5 & N6 & N7 & N8 & N9). assert (C3 : (os_count (os_of m1) =? 4) = true) by (cbn [os_of os_count]; apply Nat.eqb_eq; lia).
      cbn [app map link_run link_step]. rewrite Am1, N.eqb_refl. cbn [lk_current]. change (os_id (os_of m1)) with (lm_id m1). rewrite N.eqb_refl, C3. cbn [andb lk_now]. rewrite Du. cbn [lk_waiting lk_owes]. exact H1.
  - cbn [bind] in E1. rewrite (retransmit_rest now rest F S2) in E1; cbn [bind] in E1; injection E1 as <- <- <-. injection E2 as <- <-.
    cbn [submit_free_loop] in E3. cbv zeta in E3. destruct (lm_submitted m1) as [tt0|] eqn:Sb; [|contradiction]. rewrite Am1 in E3.
    rewrite (submit_free_blocked now ssi rest [ssi]) in E3; [|assumption|assumption|cbn; now rewrite N.eqb_refl]. cbn [bind] in E3. injection E3 as <- <-.
    exists (mk_link now (map wait_of rest) (Some (os_of m1)) false). split; [reflexivity|]. split; [|split; [|split]].
    + exists (Some m1), rest. split; [|reflexivity]. split; [reflexivity|]. split; [assumption|]. rewrite Sb. discriminate.
    + now constructor.
    + discriminate.
    + intros o E. injection E as <-. exact Du.
Qed.

(** ** The invariant of the whole list *)
Definition sub_ids ev : list N :=
  flat_map (fun e => match e with LSubmit m => match tq_reporter m with Some id => [id] | None => [] end | _ => [] end) ev.
Definition data_ev (e : lev P) : Prop :=
  match e with LSubmit m => numbered (req_bits m) <> None | LMark _ _ _ => True | _ => False end.
Definition given_after ev (g : list N) : list N := fold_left (fun g e => item_given (LDid e) g) ev g.
Lemma given_after_in ev : forall g x, In x (given_after ev g) <-> In x (sub_ids ev) \/ In x g.
Proof.
  induction ev as [|e ev IH]; intros g x; [cbn; tauto|]. cbn [given_after fold_left]. fold (given_after ev (item_given (LDid e) g)). rewrite IH.
  cbn [sub_ids flat_map]. rewrite in_app_iff. fold (sub_ids ev). destruct e; cbn [item_given In]; try tauto. destruct (tq_reporter m); cbn [In]; tauto.
Qed.
Lemma sub_ids_app a b : sub_ids (a ++ b) = sub_ids a ++ sub_ids b.
Proof. apply flat_map_app. Qed.

(** A pass over the list that submits some of its messages. *)
Definition stage l ev l' : Prop :=
  Forall msg_ok l' /\ map lm_id l' = map lm_id l /\ (forall x, In x (sub_ids ev) -> exists m, In m l' /\ lm_id m = x /\ lm_submitted m <> None) /\
  (forall m, In m l' -> unsub m -> In m l) /\ Forall data_ev ev.
Lemma submit_evs_data now m : tq_reporter (lm_buf m) = Some (lm_id m) -> numbered (req_bits (lm_buf m)) = Some (lm_ns m =? 1)%N -> Forall data_ev (submit_evs now m) /\ sub_ids (submit_evs now m) = [lm_id m].
Proof.
  intros M1 M3. split.
  - repeat constructor. cbn [data_ev]. unfold req_bits in *. cbn [tq_pdu]. rewrite M3. discriminate.
  - cbn [submit_evs sub_ids flat_map tq_reporter]. rewrite M1. reflexivity.
Qed.
Lemma retransmit_stage now : vtime now -> forall l, Forall msg_ok l -> exists ev l' r, retransmit_all now l = Ok (ev, l', r) /\ stage l ev l'.
Proof.
  intros V. induction l as [|m l IH]; intros F.
  - exists [], [], []. split; [reflexivity|]. split; [constructor|]. split; [reflexivity|]. split; [intros x []|]. split; [intros x []|constructor].
  - destruct (IH (Forall_inv_tail F)) as (e2 & l2 & r2 & E2 & S1 & S2 & S3 & S4 & S5). pose proof (Forall_inv F) as M.
    destruct (pre_notice_ok now m V M) as (M1 & Q2 & Q3 & Q4 & Q5 & Q6). cbn [retransmit_all]. rewrite (retransmit_one_eq now m V M). cbv zeta.
    assert (U : unsub (pre_notice now m) -> pre_notice now m = m).
    { unfold unsub. rewrite Q2. intros U. unfold pre_notice. rewrite (unsub_done m M U). destruct M as (_ & _ & _ & _ & _ & _ & _ & _ & M9). rewrite U in M9. destruct M9 as (_ & Z).
      unfold tx_is_transmitted, tx_is_discarded. rewrite Z. reflexivity. }
    set (m1 := pre_notice now m) in *. clearbody m1.
    assert (G : forall e m' g, msg_ok m' -> lm_id m' = lm_id m -> Forall data_ev e -> (sub_ids e = [] \/ (sub_ids e = [lm_id m] /\ lm_submitted m' <> None)) -> (unsub m' -> m' = m) ->
      exists ev l' r, bind (Ok (e, m', g)) (fun '(ev1, m0, gone) => bind (retransmit_all now l) (fun '(ev2, t, removals) => Ok (ev1 ++ ev2, m0 :: t, if gone : bool then ad_ssi (lm_addr m0) :: removals else removals))) = Ok (ev, l', r) /\ stage (m :: l) ev l').
    { intros e m' g Mm I De Se Um. rewrite E2. cbn [bind]. do 3 eexists. split; [reflexivity|]. split; [now constructor|]. split; [cbn [map]; congruence|]. split; [|split].
      - intros x X. rewrite sub_ids_app, in_app_iff in X. destruct X as [X|X].
        + destruct Se as [Se|(Se & Sm)]; rewrite Se in X; [destruct X|]. destruct X as [<-|[]]. exists m'. split; [now left|]. split; assumption.
        + destruct (S3 x X) as (y & Y1 & Y2). exists y. split; [now right|assumption].
      - intros x [<-|X] Ux; [left; symmetry; now apply Um|right; now apply S4].
      - apply Forall_app. split; assumption. }
    destruct (due now (os_of m1)).
    + destruct (N.ltb_spec (lm_count m1) 3).
      * pose proof M1 as (N1 & N2 & N3 & _). destruct (submit_evs_data now (bump m1) N1 N3) as (D1 & D2).
        apply G; [apply resubmit_ok; [assumption|lia]|exact Q4|exact D1| |discriminate].
        right. split; [|discriminate]. rewrite D2. cbn [bump lm_id]. now rewrite Q4.
      * apply G; [assumption|assumption|constructor|now left|assumption].
    + apply G; [assumption|assumption|constructor|now left|assumption].
Qed.
Lemma free_stage now : forall l bl, Forall msg_ok l -> exists ev l', submit_free_loop now bl l = Ok (ev, l') /\ stage l ev l'.
Proof.
  induction l as [|m l IH]; intros bl F.
  - exists [], []. split; [reflexivity|]. split; [constructor|]. split; [reflexivity|]. split; [intros x []|]. split; [intros x []|constructor].
  - pose proof (Forall_inv F) as M. apply Forall_inv_tail in F. cbn [submit_free_loop]. cbv zeta.
    assert (G : forall e m' bl', msg_ok m' -> lm_id m' = lm_id m -> Forall data_ev e -> (sub_ids e = [] \/ (sub_ids e = [lm_id m] /\ lm_submitted m' <> None)) -> (unsub m' -> m' = m) ->
      exists ev l', bind (submit_free_loop now bl' l) (fun '(ev2, t) => Ok (e ++ ev2, m' :: t)) = Ok (ev, l') /\ stage (m :: l) ev l').
    { intros e m' bl' Mm I De Se Um. destruct (IH bl' F) as (e2 & l2 & -> & S1 & S2 & S3 & S4 & S5). cbn [bind]. do 2 eexists. split; [reflexivity|]. split; [now constructor|]. split; [cbn [map]; congruence|]. split; [|split].
      - intros x X. rewrite sub_ids_app, in_app_iff in X. destruct X as [X|X].
        + destruct Se as [Se|(Se & Sm)]; rewrite Se in X; [destruct X|]. destruct X as [<-|[]]. exists m'. split; [now left|]. split; assumption.
        + destruct (S3 x X) as (y & Y1 & Y2). exists y. split; [now right|assumption].
      - intros x [<-|X] Ux; [left; symmetry; now apply Um|right; now apply S4].
      - apply Forall_app. split; assumption. }
    destruct (lm_submitted m) eqn:S.
    + apply (G []); [assumption|reflexivity|constructor|now left|reflexivity].
    + destruct (existsb (N.eqb (ad_ssi (lm_addr m))) bl).
      * apply (G []); [assumption|reflexivity|constructor|now left|reflexivity].
      * cbn [submit_acked tx_reset bind]. pose proof M as (N1 & N2 & N3 & _). destruct (submit_evs_data now m N1 N3) as (D1 & D2).
        apply (G (submit_evs now m) (resubmitted now m)); [now apply first_ok|reflexivity|exact D1|right; split; [exact D2|discriminate]|discriminate].
Qed.
Lemma take_expected_in ssi l m rest : take_expected ssi l = Some (m, rest) -> incl rest l /\ (NoDup (map lm_id l) -> NoDup (map lm_id rest)).
Proof.
  intros T. destruct (take_expected_split _ _ _ _ T) as (a & b & -> & -> & _). split.
  - intros x X. apply in_app_iff in X. apply in_app_iff. cbn [In]. tauto.
  - rewrite !map_app. cbn [map]. apply NoDup_remove_1.
Qed.
Lemma remove_lost_stage : forall r l e l', remove_lost r l = Ok (e, l') ->
  incl l' l /\ (NoDup (map lm_id l) -> NoDup (map lm_id l')) /\ sub_ids e = [] /\ Forall data_ev e.
Proof.
  induction r as [|s r IH]; intros l e l' E.
  - injection E as <- <-. split; [apply incl_refl|]. split; [auto|]. split; [reflexivity|constructor].
  - cbn [remove_lost] in E. destruct (take_expected s l) as [[m l1]|] eqn:T; cbn [unwrap bind] in E; try discriminate.
    destruct (tx_mark_lost (lm_rep m)) as [rp| |]; cbn [bind] in E; try discriminate.
    destruct (remove_lost r l1) as [[e2 l2]| |] eqn:R; cbn [bind] in E; try discriminate. injection E as <- <-.
    destruct (IH _ _ _ R) as (I1 & I2 & I3 & I4). destruct (take_expected_in _ _ _ _ T) as (J1 & J2).
    split; [eapply incl_tran; eassumption|]. split; [auto|]. split; [exact I3|]. constructor; [exact I|assumption].
Qed.
Definition unsub_free (g : list N) l : Prop := forall m, In m l -> unsub m -> ~ In (lm_id m) g.
Lemma NoDup_id_inj l a b : NoDup (map lm_id l) -> In a l -> In b l -> lm_id a = lm_id b -> a = b.
Proof.
  induction l as [|x l IH]; [intros _ []|]. cbn [map]. intros N. apply NoDup_cons_iff in N. destruct N as (N1 & N2).
  intros [<-|A] [<-|B] E; [reflexivity| | |now apply IH].
  - exfalso. apply N1. rewrite E. now apply in_map.
  - exfalso. apply N1. rewrite <- E. now apply in_map.
Qed.
Lemma stage_free g l ev l' : NoDup (map lm_id l) -> stage l ev l' -> unsub_free g l -> unsub_free (sub_ids ev ++ g) l'.
Proof.
  intros ND (_ & S2 & S3 & S4 & _) U m M Um X. apply in_app_iff in X. destruct X as [X|X].
  - destruct (S3 _ X) as (m2 & M2 & I & Sb). rewrite <- S2 in ND. rewrite (NoDup_id_inj _ _ _ ND M M2 (eq_sym I)) in Um. exact (Sb Um).
  - exact (U m (S4 m M Um) Um X).
Qed.

(** ** The invariant *)
Definition ack_ok (a : outack) : Prop := (oa_nr a < 2)%N /\ (1 <= tm_t (oa_start a) <= 4)%Z.
Definition udata_ok (named : list N) l (q : tma_req P) : Prop :=
  (exists f sdu, bl_parse (req_bits q) = Some (UData f sdu)) /\ forall id, tq_reporter q = Some id -> In id named /\ ~ In id (map lm_id l).
Record good (named given : list N) (s : llc P) : Prop := {
  g_time : vtime (ll_time s);
  g_msgs : Forall msg_ok (ll_out s);
  g_nodup : NoDup (map lm_id (ll_out s));
  g_named : incl (map lm_id (ll_out s)) named;
  g_free : unsub_free given (ll_out s);
  g_given : incl given named;
  g_acks : Forall ack_ok (ll_acks s);
  g_udata : Forall (udata_ok named (ll_out s)) (ll_udata s);
  g_seq : forall k v, aget k (ll_seq s) = Some v -> (v < 2)%N }.
Arguments g_time {_ _ _}. Arguments g_msgs {_ _ _}. Arguments g_nodup {_ _ _}. Arguments g_named {_ _ _}. Arguments g_free {_ _ _}.
Arguments g_given {_ _ _}. Arguments g_acks {_ _ _}. Arguments g_udata {_ _ _}. Arguments g_seq {_ _ _}.

Lemma good_new : good [] [] llc_new.
Proof.
  split; cbn [llc_new ll_time ll_acks ll_out ll_udata ll_seq map]; try constructor; try (intros ? []); try discriminate.
  - cbv; intuition discriminate.
  - cbv; intuition discriminate.
Qed.

(** *** Stand-alone acknowledgements and unacknowledged data *)
Definition plain_ev (e : lev P) : Prop := match e with LSubmit m => numbered (req_bits m) = None | _ => False end.
Lemma link_run_plain ssi k ev : Forall plain_ev ev -> link_run ssi k (map LDid ev) = Some k.
Proof.
  induction 1 as [|e ev E F IH]; [reflexivity|]. cbn [map link_run]. destruct e; try contradiction. cbn [plain_ev] in E. cbn [link_step]. rewrite E, Bool.andb_false_r. exact IH.
Qed.
Lemma ack_reply_spec now a : ack_ok a -> exists q, ack_reply (P := P) now a = Ok (LSubmit q) /\ bl_parse (req_bits q) = Some (Ack false (oa_nr a =? 1)%N []) /\
  tq_addr q = oa_addr a /\ tq_reporter q = None /\ slot_of q = tm_t (oa_start a).
Proof.
  intros (A1 & A2). unfold ack_reply. destruct (ba_bits false (oa_nr a) A1 (bb_new_autoexpand 5) (wf_new_autoexpand 5)) as (b1 & -> & O1); [left; reflexivity|]. cbn [bind].
  destruct (wrote_fresh _ _ _ O1) as (W1 & V1 & _). destruct (seek0 b1 W1) as (b2 & -> & W2 & V2 & _). cbn [bind]. eexists. split; [reflexivity|].
  unfold req_bits. cbn [tq_pdu tq_addr tq_reporter]. rewrite V2, V1. split; [reflexivity|]. split; [reflexivity|]. split; [reflexivity|].
  unfold slot_of. cbn [tq_chan]. assert (tm_t (oa_start a) = 1 \/ tm_t (oa_start a) = 2 \/ tm_t (oa_start a) = 3 \/ tm_t (oa_start a) = 4)%Z as [E|[E|[E|E]]] by lia; rewrite E; reflexivity.
Qed.
Definition ack_key (a : outack) : N * Z * bool := (ad_ssi (oa_addr a), tm_t (oa_start a), (oa_nr a =? 1)%N).
Lemma acks_spec now : forall (l : list outack), Forall ack_ok l -> exists ev, mapM_acks (P := P) now l = Ok ev /\ Forall plain_ev ev /\ sub_ids ev = [] /\
  standalone (map LDid ev) = map ack_key l /\ piggybacked (map LDid ev) = [].
Proof.
  induction l as [|a l IH]; intros F; [exists []; repeat split; constructor|]. destruct (IH (Forall_inv_tail F)) as (ev & E & E1 & E2 & E3 & E4).
  destruct (ack_reply_spec now a (Forall_inv F)) as (q & Q & Q1 & Q2 & Q3 & Q4). cbn [mapM_acks]. rewrite Q. cbn [bind]. rewrite E. cbn [bind].
  exists (LSubmit q :: ev). split; [reflexivity|]. split; [constructor; [|assumption]; unfold plain_ev, numbered; rewrite Q1; reflexivity|].
  split; [cbn [sub_ids flat_map]; rewrite Q3; exact E2|]. split; [|exact E4]. cbn [map standalone flat_map]. rewrite Q1. cbn [app]. unfold standalone in E3. rewrite E3. unfold ack_key at 1. rewrite Q2, Q4. reflexivity.
Qed.
Lemma udata_evs named l : forall u, Forall (udata_ok named l) u ->
  Forall plain_ev (map LSubmit u) /\ (forall x, In x (sub_ids (map LSubmit u)) -> In x named /\ ~ In x (map lm_id l)) /\
  standalone (map LDid (map LSubmit u)) = [] /\ piggybacked (map LDid (map LSubmit u)) = [].
Proof.
  induction u as [|q u IH]; intros F; [repeat split; try constructor; destruct H|]. destruct (IH (Forall_inv_tail F)) as (I1 & I2 & I3 & I4). pose proof (Forall_inv F) as ((f & sdu & Q1) & Q2).
  split; [|split; [|split]].
  - constructor; [|assumption]. unfold plain_ev, numbered. rewrite Q1. reflexivity.
  - cbn [map sub_ids flat_map]. intros x X. apply in_app_iff in X. destruct X as [X|X]; [|exact (I2 x X)]. destruct (tq_reporter q) as [id|] eqn:R; [|destruct X]. destruct X as [<-|[]]. exact (Q2 id eq_refl).
  - cbn [map standalone flat_map]. rewrite Q1. exact I3.
  - exact I4.
Qed.

(** *** The end of a tick *)
Lemma tick_end_inv named given s ev s' : good named given s -> llc_tick_end s = Ok (ev, s') ->
  good named (given_after ev given) s' /\
  (forall ssi k, matches (ll_time s) (mine ssi (ll_out s)) k ->
     exists k', link_run ssi (link_call (P := P) ssi k LTickEnd) (map LDid ev) = Some k' /\ matches (ll_time s') (mine ssi (ll_out s')) k' /\
       (lk_current k' = None -> lk_waiting k' = []) /\ (forall o, lk_current k' = Some o -> due (lk_now k') o = false)) /\
  standalone (map LDid ev) = map ack_key (ll_acks s) /\ piggybacked (map LDid ev) = [] /\ ll_acks s' = [].
Proof.
  intros G E. unfold llc_tick_end, submit_retransmissions in E.
  destruct (retransmit_stage (ll_time s) (g_time G) (ll_out s) (g_msgs G)) as (e1 & l1 & r & E1 & S1). rewrite E1 in E. cbn [bind] in E.
  destruct (remove_lost r l1) as [[e2 l2]| |] eqn:E2; cbn [bind] in E; try discriminate.
  destruct (remove_lost_stage _ _ _ _ E2) as (R1 & R2 & R3 & R4). unfold submit_free_messages in E. cbn [set_out ll_time ll_out] in E.
  assert (F2 : Forall msg_ok l2) by (apply Forall_forall; intros x X; exact (proj1 (Forall_forall _ _) (proj1 S1) x (R1 x X))).
  destruct (free_stage (ll_time s) l2 [] F2) as (e3 & l3 & E3 & S3). rewrite E3 in E. cbn [bind] in E.
  unfold submit_ack_replies in E. cbn [set_out ll_time ll_acks] in E.
  destruct (acks_spec (ll_time s) (ll_acks s) (g_acks G)) as (e4 & E4 & A1 & A2 & A3 & A4). rewrite E4 in E. cbn [bind] in E.
  unfold submit_udata in E. cbn [set_acks set_out ll_time ll_acks ll_out ll_udata ll_seq] in E. injection E as <- <-.
  destruct (udata_evs _ _ _ (g_udata G)) as (U1 & U2 & U3 & U4).
  assert (ND1 : NoDup (map lm_id l1)) by (destruct S1 as (_ & -> & _); exact (g_nodup G)).
  assert (ND2 : NoDup (map lm_id l2)) by auto.
  assert (ND3 : NoDup (map lm_id l3)) by (destruct S3 as (_ & -> & _); exact ND2).
  assert (I2 : incl (map lm_id l2) (map lm_id (ll_out s))).
  { destruct S1 as (_ & <- & _). intros x X. apply in_map_iff in X. destruct X as (y & <- & Y). apply in_map. auto. }
  assert (I3 : incl (map lm_id l3) (map lm_id (ll_out s))) by (destruct S3 as (_ & -> & _); exact I2).
  assert (UF1 : unsub_free (sub_ids e1 ++ given) l1) by exact (stage_free _ _ _ _ (g_nodup G) S1 (g_free G)).
  assert (UF2 : unsub_free (sub_ids e1 ++ given) l2) by (intros m M; apply UF1; auto).
  assert (UF3 : unsub_free (sub_ids e3 ++ sub_ids e1 ++ given) l3) by exact (stage_free _ _ _ _ ND2 S3 UF2).
  split; [|split; [|split; [|split]]].
  - split; cbn [ll_time ll_acks ll_out ll_udata ll_seq]; try exact (g_time G); try exact (g_seq G); try assumption; try constructor.
    + exact (proj1 S3).
    + eapply incl_tran; [exact I3|exact (g_named G)].
    + intros m M Um X. apply given_after_in in X. rewrite !sub_ids_app, A2, R3 in X. rewrite !in_app_iff in X. cbn [In] in X.
      pose proof (UF3 m M Um) as Y. rewrite !in_app_iff in Y.
      assert (Z : ~ In (lm_id m) (sub_ids (map LSubmit (ll_udata s)))). { intros Z. destruct (U2 _ Z) as (_ & Z2). apply Z2, I3. now apply in_map. }
      tauto.
    + intros x X. apply given_after_in in X. rewrite !sub_ids_app, A2, R3 in X. rewrite !in_app_iff in X. cbn [In] in X.
      assert (Y1 : In x (sub_ids e1) -> In x named). { intros Y. destruct S1 as (_ & T & S1 & _). destruct (S1 x Y) as (m & M & <- & _). apply (g_named G). rewrite <- T. now apply in_map. }
      assert (Y3 : In x (sub_ids e3) -> In x named). { intros Y. destruct S3 as (_ & T & S3 & _). destruct (S3 x Y) as (m & M & <- & _). apply (g_named G), I3. now apply in_map. }
      assert (Y4 : In x (sub_ids (map LSubmit (ll_udata s))) -> In x named) by (intros Y; exact (proj1 (U2 x Y))).
      pose proof (g_given G x). tauto.
  - intros ssi k Mk. cbn [ll_time ll_out].
    pose proof (retransmit_all_mine _ ssi _ _ _ _ (g_msgs G) E1) as C1. pose proof (remove_lost_mine ssi _ _ _ _ E2) as C2. pose proof (submit_free_mine _ ssi _ _ _ _ F2 E3) as C3. cbn [filter] in C3.
    assert (X1 : Forall msg_ok (mine ssi (ll_out s))) by (apply Forall_forall; intros x X; apply filter_In in X; exact (proj1 (Forall_forall _ _) (g_msgs G) x (proj1 X))).
    assert (X2 : Forall (fun m => ad_ssi (lm_addr m) = ssi) (mine ssi (ll_out s))) by (apply Forall_forall; intros x X; apply filter_In in X; now apply N.eqb_eq).
    destruct (tick_link _ _ _ _ _ _ _ _ _ _ _ (g_time G) X1 X2 Mk C1 C2 C3) as (k' & K1 & K2 & K3 & K4 & K5).
    exists k'. split; [|split; [exact K2|split; [exact K4|]]].
    + rewrite <- !filter_app in K1. rewrite <- link_run_ev in K1. rewrite (app_assoc e1 e2 e3) in K1. rewrite (app_assoc (e1 ++ e2) e3), (map_app LDid ((e1 ++ e2) ++ e3)), link_run_app. rewrite K1.
      rewrite map_app, link_run_app. rewrite (link_run_plain ssi k' e4 A1). now apply link_run_plain.
    + destruct K2 as (cur & rest & _ & ->). exact K5.
  - assert (N0 : forall x, Forall data_ev x -> standalone (map LDid x) = [] ).
    { intros x. induction 1 as [|e x X Fx IH]; [reflexivity|]. cbn [map standalone flat_map]. unfold standalone in IH. rewrite IH, app_nil_r. destruct e; try reflexivity. cbn [data_ev] in X. unfold numbered in X.
      destruct (bl_parse (req_bits m)) as [[]|]; try reflexivity. exfalso. now apply X. }
    unfold standalone in *. rewrite !map_app, !flat_map_app. rewrite (N0 e1), (N0 e2), (N0 e3), A3, U3 by (assumption || apply S1 || apply S3). cbn [app]. apply app_nil_r.
  - assert (N0 : forall x, Forall data_ev x -> piggybacked (map LDid x) = [] ).
    { intros x. induction 1 as [|e x X Fx IH]; [reflexivity|]. cbn [map piggybacked flat_map]. unfold piggybacked in IH. rewrite IH, app_nil_r. destruct e; try reflexivity. destruct X. }
    unfold piggybacked in *. rewrite !map_app, !flat_map_app. rewrite (N0 e1), (N0 e2), (N0 e3), A4, U4 by (assumption || apply S1 || apply S3). reflexivity.
  - reflexivity.
Qed.
(** *** A request *)
Lemma take_ack_spec tn ssi : forall (l : list outack) n (l' : list outack), take_ack tn ssi l = Some (n, l') ->
  Permutation (map ack_key l) ((ssi, tn, (n =? 1)%N) :: map ack_key l') /\ incl l' l /\ exists a, In a l /\ oa_nr a = n.
Proof.
  induction l as [|a l IH]; intros n l' E; [discriminate|]. cbn [take_ack] in E.
  destruct ((tm_t (oa_start a) =? tn)%Z && (ad_ssi (oa_addr a) =? ssi)%N)%bool eqn:C.
  - injection E as <- <-. apply andb_prop in C. destruct C as (C1 & C2). apply Z.eqb_eq in C1. apply N.eqb_eq in C2. subst. split; [reflexivity|]. split; [intros x X; now right|]. exists a. split; [now left|reflexivity].
  - destruct (take_ack tn ssi l) as [[n1 l1]|]; [|discriminate]. injection E as <- <-. destruct (IH _ _ eq_refl) as (I1 & I2 & x & X1 & X2). split; [|split].
    + cbn [map]. rewrite I1. apply perm_swap.
    + intros y [<-|Y]; [now left|right; auto].
    + exists x. split; [now right|assumption].
Qed.
Definition seq_of (s : llc P) (ssi : N) : N := match aget ssi (ll_seq s) with Some v => v | None => 0%N end.
Lemma seq_bound named given s ssi : good named given s -> (seq_of s ssi < 2)%N.
Proof. intros G. unfold seq_of. destruct (aget ssi (ll_seq s)) as [v|] eqn:E; [exact (g_seq G _ _ E)|lia]. Qed.

Lemma data_req_eq named given id rep q s : good named given s -> wf (lq_sdu q) ->
  lq_steal q = true \/ ad_type (lq_addr q) = SsiGssi \/
  exists m acks, rx_tldata_req id rep q s =
    Ok ([LQueued id m], mk_llc (ll_time s) acks (ll_out s ++ [mk_lmsg id (lq_addr q) (seq_of s (ad_ssi (lq_addr q))) (lq_time q) None None rep m 0])
                         (ll_udata s) (aset (ad_ssi (lq_addr q)) (N.lxor (seq_of s (ad_ssi (lq_addr q))) 1) (ll_seq s))) /\
    tq_addr m = lq_addr q /\ tq_time m = lq_time q /\ tq_reporter m = Some id /\ tq_steal m = lq_steal q /\ tq_chan m = lq_chan q /\ tq_info m = lq_info q /\
    Forall ack_ok acks /\
    (let ns := (seq_of s (ad_ssi (lq_addr q)) =? 1)%N in
     (exists nr, bl_parse (req_bits m) = Some (AData (lq_fcs q) nr ns (remaining (lq_sdu q))) /\
        Permutation (map ack_key (ll_acks s)) ((ad_ssi (lq_addr q), tm_t (lq_time q), nr) :: map ack_key acks)) \/
     (bl_parse (req_bits m) = Some (Data (lq_fcs q) ns (remaining (lq_sdu q))) /\ acks = ll_acks s)).
Proof.
  intros G W. destruct (lq_steal q) eqn:St; [now left|]. right. destruct (ad_type (lq_addr q)) eqn:Ty; try (left; reflexivity); right;
  (unfold rx_tldata_req; rewrite St, Ty; cbn [negb ssi_type_eqb assert bind]; unfold get_out_ack_seq_if_any;
   pose proof (seq_bound _ _ _ (ad_ssi (lq_addr q)) G) as SB; set (ns := seq_of s (ad_ssi (lq_addr q))) in *;
   destruct (take_ack (tm_t (lq_time q)) (ad_ssi (lq_addr q)) (ll_acks s)) as [[n l']|] eqn:T;
   [ destruct (take_ack_spec _ _ _ _ _ T) as (T1 & T2 & a & T3 & T4);
     assert (NB : (n < 2)%N) by (rewrite <- T4; exact (proj1 (proj1 (Forall_forall _ _) (g_acks G) a T3)));
     unfold get_next_send_seq; cbn [set_acks ll_time ll_acks ll_out ll_udata ll_seq]; cbn [set_acks ll_seq] in *; change (match aget (ad_ssi (lq_addr q)) (ll_seq s) with Some v => v | None => 0%N end) with ns;
     destruct (llc_pdu_spec _ _ (lq_sdu q) (bad_bits (lq_fcs q) n ns NB SB) W) as (b & -> & Wb & Vb); cbn [bind];
     do 2 eexists; split; [reflexivity|]; cbn [tq_addr tq_time tq_reporter tq_steal tq_chan tq_info]; repeat (split; [reflexivity|]); split;
     [ apply Forall_forall; intros x X; exact (proj1 (Forall_forall _ _) (g_acks G) x (T2 x X))
     | left; exists (n =? 1)%N; unfold req_bits; cbn [tq_pdu]; rewrite Vb; split; [reflexivity|exact T1] ]
   | unfold get_next_send_seq; cbn [ll_time ll_acks ll_out ll_udata ll_seq]; change (match aget (ad_ssi (lq_addr q)) (ll_seq s) with Some v => v | None => 0%N end) with ns;
     destruct (llc_pdu_spec _ _ (lq_sdu q) (bd_bits (lq_fcs q) ns SB) W) as (b & -> & Wb & Vb); cbn [bind];
     do 2 eexists; split; [reflexivity|]; cbn [tq_addr tq_time tq_reporter tq_steal tq_chan tq_info]; repeat (split; [reflexivity|]); split;
     [ exact (g_acks G) | right; unfold req_bits; cbn [tq_pdu]; rewrite Vb; split; reflexivity ] ]).
Qed.
End L.
