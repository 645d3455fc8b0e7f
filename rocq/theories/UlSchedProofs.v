(** Proofs about uplink slot granting. *)
From Coq Require Import FinFun.
From Verif Require Import Base BitBufferOps MacFields MacFacts TdmaTime TdmaTimeProofs UlSched UlSchedSpec.
Open Scope Z_scope.


Lemma add_from a b : add_timeslots (from_int a) b = from_int (a + b).
Proof. unfold add_timeslots. rewrite to_from_int. apply from_int_eq. now rewrite Z.add_mod_idemp_l by discriminate. Qed.
Lemma forward_from now t : 1 <= t <= 4 -> forward_to_timeslot (from_int now) t = from_int (first_at now t).
Proof. intros H. unfold forward_to_timeslot, first_at. rewrite add_from. f_equal. cbn [from_int tm_t]. lia. Qed.
Lemma first_at_spec now t : 1 <= t <= 4 -> now <= first_at now t <= now + 3 /\ (first_at now t) mod 4 = t - 1.
Proof. unfold first_at. lia. Qed.

(** Cells by absolute slot number. *)
Definition frame_ix (x : Z) : nat := Z.to_nat ((x / 4) mod 18).
Definition slot_ix (x : Z) : nat := Z.to_nat (x mod 4).
Definition cell (s : ulsched) (x : Z) : ts_sched := nth (frame_ix x) (nth (slot_ix x) s []) (None, None).
Definition shape (s : ulsched) : Prop := length s = 4%nat /\ Forall (fun r => length r = 18%nat) s.

Lemma ul_index_from x : ul_index (from_int x) = Ok (frame_ix x).
Proof.
  unfold ul_index, from_int, frame_ix. cbn [tm_t tm_f tm_m tm_h].
  destruct (Z.leb_spec 1 ((x / 4) mod 18 + 1)); [|lia]. destruct (Z.leb_spec 1 ((x / (4 * 18)) mod 60 + 1)); [|lia]. cbn [assert bind]. do 2 f_equal.
  set (a := (x / 4) mod 18). set (b := (x / (4 * 18)) mod 60). set (c := (x / (4 * 18 * 60)) mod 65536).
  replace (a + 1 - 1 + (b + 1 - 1) * 18 + c * 18 * 60) with (a + (b + c * 60) * 18) by lia. rewrite Z.mod_add by lia. apply Z.mod_small. subst a. lia.
Qed.
Lemma tm_t_from x : tm_t (from_int x) = x mod 4 + 1.
Proof. reflexivity. Qed.
Lemma row_len s i : shape s -> (i < 4)%nat -> length (nth i s []) = 18%nat.
Proof. intros (L & F) H. setoid_rewrite Forall_forall in F. apply F. apply nth_In. lia. Qed.
Lemma slot_ix_lt x : (slot_ix x < 4)%nat.
Proof. unfold slot_ix. lia. Qed.
Lemma frame_ix_lt x : (frame_ix x < 18)%nat.
Proof. unfold frame_ix. lia. Qed.
Lemma ul_cell_from s x : shape s -> ul_cell s (x mod 4 + 1) (frame_ix x) = Ok (cell s x).
Proof.
  intros S. unfold ul_cell, cell. destruct (Z.leb_spec 1 (x mod 4 + 1)); [|lia]. cbn [assert bind].
  replace (Z.to_nat (x mod 4 + 1 - 1)) with (slot_ix x) by (unfold slot_ix; lia). pose proof (slot_ix_lt x). pose proof (frame_ix_lt x).
  assert (E1 : nth_error s (slot_ix x) = Some (nth (slot_ix x) s [])) by (apply nth_error_nth'; destruct S; lia). rewrite E1. cbn [unwrap bind].
  assert (E2 : nth_error (nth (slot_ix x) s []) (frame_ix x) = Some (nth (frame_ix x) (nth (slot_ix x) s []) (None, None))) by (apply nth_error_nth'; rewrite row_len; assumption).
  rewrite E2. reflexivity.
Qed.
Definition setc (s : ulsched) (x : Z) (c : ts_sched) : ulsched := ul_set s (x mod 4 + 1) (frame_ix x) c.
Lemma setc_shape s x c : shape s -> shape (setc s x c).
Proof.
  intros S. pose proof S as (L & F). unfold setc, ul_set. replace (Z.to_nat (x mod 4 + 1 - 1)) with (slot_ix x) by (unfold slot_ix; lia).
  split; [now rewrite upd_length|]. apply Forall_forall. intros r Hr. apply (In_nth _ _ []) in Hr. destruct Hr as (i & Hi & <-). rewrite upd_length in Hi. rewrite nth_upd.
  destruct (_ && _)%bool; [rewrite upd_length; apply row_len; [assumption|apply slot_ix_lt]|apply row_len; [assumption|lia]].
Qed.
Lemma cell_setc s x c y : shape s -> cell (setc s x c) y = if (x mod 72 =? y mod 72) then c else cell s y.
Proof.
  intros S. unfold cell, setc, ul_set. replace (Z.to_nat (x mod 4 + 1 - 1)) with (slot_ix x) by (unfold slot_ix; lia). rewrite nth_upd.
  pose proof (slot_ix_lt x). pose proof (frame_ix_lt x). destruct S as (L & F).
  destruct (Nat.ltb_spec (slot_ix x) (length s)); [|lia]. rewrite andb_true_r.
  destruct (Nat.eqb_spec (slot_ix y) (slot_ix x)) as [E1|E1].
  - rewrite nth_upd. rewrite (row_len s (slot_ix x) (conj L F)) by assumption. destruct (Nat.ltb_spec (frame_ix x) 18); [|lia]. rewrite andb_true_r.
    destruct (Nat.eqb_spec (frame_ix y) (frame_ix x)) as [E2|E2].
    + destruct (Z.eqb_spec (x mod 72) (y mod 72)) as [E3|E3]; [reflexivity|]. exfalso. apply E3. unfold slot_ix, frame_ix in *. clear - E1 E2. lia.
    + destruct (Z.eqb_spec (x mod 72) (y mod 72)) as [E3|E3]; [exfalso; apply E2; unfold frame_ix; clear - E3; lia|]. now rewrite E1.
  - destruct (Z.eqb_spec (x mod 72) (y mod 72)) as [E3|E3]; [exfalso; apply E1; unfold slot_ix; clear - E3; lia|reflexivity].
Qed.
Lemma shape_empty : shape ul_empty.
Proof. split; [reflexivity|]. repeat constructor. Qed.
Lemma cell_empty x : cell ul_empty x = (None, None).
Proof.
  unfold cell. pose proof (slot_ix_lt x) as H. destruct (slot_ix x) as [|[|[|[|k]]]]; [| | | |lia]; apply (nth_repeat (None, None)).
Qed.

(** ** The search *)
Definition cands (x : Z) (n : nat) : list Z := map (fun i => x + 4 * Z.of_nat i) (seq 0 n).
Lemma cands_S x n : cands x (n + 1) = cands x n ++ [x + 4 * Z.of_nat n].
Proof. unfold cands. rewrite Nat.add_1_r, seq_S, map_app. reflexivity. Qed.
Lemma opps_def n x : opportunities n x = filter (fun y => negb (is_mandatory_clch (from_int y))) (cands x n).
Proof. reflexivity. Qed.
Lemma opps_S n x : opportunities (n + 1) x = opportunities n x ++ (if is_mandatory_clch (from_int (x + 4 * Z.of_nat n)) then [] else [x + 4 * Z.of_nat n]).
Proof. rewrite !opps_def, cands_S, filter_app. cbn [filter]. now destruct (is_mandatory_clch _). Qed.
Lemma opps_prefix n m x : (n <= m)%nat -> exists r, opportunities m x = opportunities n x ++ r.
Proof.
  intros H. induction H as [|m H (r & IH)]; [exists []; now rewrite app_nil_r|]. replace (S m) with (m + 1)%nat by lia. rewrite opps_S, IH, <- app_assoc. eauto.
Qed.
Lemma opps_range n x y : In y (opportunities n x) -> x <= y <= x + 4 * (Z.of_nat n - 1) /\ y mod 4 = x mod 4.
Proof.
  rewrite opps_def. intros H. apply filter_In in H. destruct H as [H _]. apply in_map_iff in H. destruct H as (i & <- & Hi). apply in_seq in Hi. split; [lia|].
  replace (x + 4 * Z.of_nat i) with (x + Z.of_nat i * 4) by lia. apply Z.mod_add. lia.
Qed.
Lemma opps_nodup n x : NoDup (opportunities n x).
Proof. rewrite opps_def. apply NoDup_filter. unfold cands. apply Injective_map_NoDup; [|apply seq_NoDup]. intros a b H. lia. Qed.

Definition freec (s : ulsched) (half : bool) (y : Z) : bool := cell_free half (cell s y).
Lemma find_loop_spec s F t num half : shape s -> 1 <= t <= 4 -> F mod 4 = t - 1 -> (0 < num)%nat ->
  forall n d skipped grants, let P := opportunities d F in
    (skipped <= length P)%nat -> grants = map from_int (skipn skipped P) -> Forall (fun y => freec s half y = true) (skipn skipped P) ->
    (length P - skipped < num)%nat -> (skipped = 0%nat \/ freec s half (nth (skipped - 1) P 0) = false) ->
    (forall k, (k + num <= length P)%nat -> Exists (fun y => freec s half y = false) (firstn num (skipn k P))) ->
  exists r, find_loop s (from_int F) t num half n d skipped grants = Ok r /\
    match r with
    | Some (k, ts) => let ys := firstn num (skipn k (opportunities (d + n) F)) in
        length ys = num /\ ts = map from_int ys /\ Forall (fun y => freec s half y = true) ys
    | None => forall k, (k + num <= length (opportunities (d + n) F))%nat -> Exists (fun y => freec s half y = false) (firstn num (skipn k (opportunities (d + n) F)))
    end.
Proof.
  intros S Ht HF Hn. induction n as [|n IH]; intros d skipped grants P Hs Hg Hf Hl Hb Hc.
  - exists None. split; [reflexivity|]. rewrite Nat.add_0_r. exact Hc.
  - cbn [find_loop]. rewrite add_from. replace (F + Z.of_nat d * 4) with (F + 4 * Z.of_nat d) by lia. set (y := F + 4 * Z.of_nat d) in *.
    assert (Ey : y mod 4 = t - 1) by (subst y; replace (F + 4 * Z.of_nat d) with (F + Z.of_nat d * 4) by lia; rewrite Z.mod_add by lia; assumption).
    rewrite !tm_t_from, Ey, HF, Z.eqb_refl. cbn [assert bind]. cbv zeta. pose proof (opps_S d F) as EP. fold P y in EP.
    replace (d + Datatypes.S n)%nat with ((d + 1) + n)%nat by lia.
    destruct (is_mandatory_clch (from_int y)) eqn:EM.
    + rewrite app_nil_r in EP. apply IH; rewrite EP; assumption.
    + rewrite ul_index_from. cbn [bind]. 
      assert (EC : ul_cell s t (frame_ix y) = Ok (cell s y)) by (replace t with (y mod 4 + 1) by lia; apply ul_cell_from; assumption). rewrite EC. cbn [bind].
      fold (freec s half y). set (P' := opportunities (d + 1) F) in *.
      destruct (freec s half y) eqn:EF.
      * assert (ES : skipn skipped P' = skipn skipped P ++ [y]).
        { rewrite EP, skipn_app. replace (skipped - length P)%nat with 0%nat by lia. reflexivity. }
        assert (EL : length P' = (length P + 1)%nat) by (rewrite EP, app_length; reflexivity).
        assert (EG : grants ++ [from_int y] = map from_int (skipn skipped P')) by (rewrite ES, map_app, Hg; reflexivity).
        assert (EF' : Forall (fun y => freec s half y = true) (skipn skipped P')) by (rewrite ES; apply Forall_app; split; [assumption|constructor; [assumption|constructor]]).
        rewrite EG, map_length, skipn_length, EL. destruct (Nat.eqb_spec (length P + 1 - skipped) num) as [EN|EN].
        -- eexists. split; [reflexivity|]. cbv zeta. destruct (opps_prefix (d + 1) (d + 1 + n) F) as (r & Er); [lia|]. fold P' in Er.
           assert (EK : firstn num (skipn skipped (opportunities (d + 1 + n) F)) = skipn skipped P').
           { rewrite Er, skipn_app. replace (skipped - length P')%nat with 0%nat by lia. cbn [skipn]. rewrite firstn_app.
             replace (num - length (skipn skipped P'))%nat with 0%nat by (rewrite skipn_length; lia). cbn [firstn]. rewrite app_nil_r. apply firstn_all2. rewrite skipn_length. lia. }
           rewrite EK. split; [rewrite skipn_length; lia|]. split; [reflexivity|assumption].
        -- apply IH; fold P'; try assumption; try lia.
           ++ reflexivity.
           ++ destruct Hb as [Hb|Hb]; [left; assumption|]. destruct skipped as [|k0]; [left; reflexivity|]. right. rewrite EP, app_nth1 by lia. assumption.
           ++ intros k Hk. destruct (Nat.le_gt_cases (k + num) (length P)) as [L|L].
              ** rewrite EP, skipn_app, firstn_app. specialize (Hc k L). apply Exists_app. left.
                 assumption.
              ** destruct Hb as [Hb|Hb]; [lia|]. apply Exists_exists. exists (nth (skipped - 1) P 0). split; [|assumption].
                 assert (E1 : nth (skipped - 1) P 0 = nth (skipped - 1 - k) (firstn num (skipn k P')) 0).
                 { rewrite EP in *. rewrite nth_firstn' by lia. rewrite nth_skipn'. replace (k + (skipped - 1 - k))%nat with (skipped - 1)%nat by lia. rewrite app_nth1 by lia. reflexivity. }
                 rewrite E1. apply nth_In. rewrite firstn_length, skipn_length. lia.
      * cbn [length]. destruct num as [|num']; [lia|]. cbn [Nat.eqb].
        assert (EL : length P' = (length P + 1)%nat) by (rewrite EP, app_length; reflexivity).
        assert (EK : (skipped + (length grants + 1))%nat = length P') by (rewrite Hg, map_length, skipn_length; lia). rewrite EK.
        apply IH; fold P'.
        -- lia.
        -- now rewrite skipn_all.
        -- rewrite skipn_all. constructor.
        -- lia.
        -- right. rewrite EL. replace (length P + 1 - 1)%nat with (length P) by lia. rewrite EP, app_nth2, Nat.sub_diag by lia. exact EF.
        -- intros k Hk. destruct (Nat.le_gt_cases (k + Datatypes.S num') (length P)) as [L|L].
           ++ rewrite EP, skipn_app, firstn_app. apply Exists_app. left. exact (Hc k L).
           ++ apply Exists_exists. exists y. split; [|assumption].
              assert (E1 : y = nth (length P - k) (firstn (Datatypes.S num') (skipn k P')) 0).
              { rewrite EP in *. rewrite nth_firstn' by lia. rewrite nth_skipn'. replace (k + (length P - k))%nat with (length P) by lia. rewrite app_nth2, Nat.sub_diag by lia. reflexivity. }
              rewrite E1. apply nth_In. rewrite firstn_length, skipn_length. lia.
Qed.

(** ** Reservation *)
Definition win (now y : Z) : Prop := now - 2 <= y <= now + 69.
Lemma win_mod now x y : win now x -> win now y -> (x mod 72 =? y mod 72) = (x =? y).
Proof.
  intros H1 H2. unfold win in *. destruct (Z.eqb_spec x y) as [->|N]; [apply Z.eqb_refl|]. apply Z.eqb_neq. intros E. apply N.
  assert (E2 : (x - y) mod 72 = 0) by (rewrite Zminus_mod, E, Z.sub_diag; reflexivity). clear E. apply Z.mod_divide in E2; [|lia]. destruct E2 as (k & E2). lia.
Qed.
Lemma reserve_full_spec now ssi : forall ys s, shape s -> NoDup ys -> Forall (win now) ys -> Forall (fun y => cell s y = (None, None)) ys ->
  exists s', reserve_full ssi (map from_int ys) s = Ok s' /\ shape s' /\
    forall y, win now y -> cell s' y = if existsb (Z.eqb y) ys then (Some ssi, Some ssi) else cell s y.
Proof.
  induction ys as [|x ys IH]; intros s S ND W F; [exists s; split; [reflexivity|]; split; [assumption|reflexivity]|].
  apply NoDup_cons_iff in ND. destruct ND as [NI ND]. inversion W as [|? ? Wx Wr]; subst. inversion F as [|? ? Fx Fr]; subst.
  cbn [map reserve_full]. rewrite ul_index_from. cbn [bind]. rewrite tm_t_from, ul_cell_from, Fx by assumption. cbn [bind fst snd isnone assert]. fold (setc s x (Some ssi, Some ssi)).
  destruct (IH (setc s x (Some ssi, Some ssi))) as (s' & E & S' & C); [now apply setc_shape|assumption|assumption| |].
  - rewrite Forall_forall in *. intros y Hy. rewrite cell_setc, (win_mod now) by auto. destruct (Z.eqb_spec x y) as [->|]; [contradiction|auto].
  - exists s'. split; [assumption|]. split; [assumption|]. intros y Hy. rewrite (C y Hy). cbn [existsb]. rewrite cell_setc, (win_mod now), (Z.eqb_sym x y) by auto.
    destruct (existsb (Z.eqb y) ys); [now rewrite orb_true_r|]. rewrite orb_false_r. reflexivity.
Qed.

Lemma req_table req : (req <= 14)%N -> exists n, (if (req =? 0)%N then Ok 1%N else resreq_to_req_slotcount req) = Ok n /\
  N.to_nat n = (if (req =? 0)%N then 1%nat else slots_of req) /\ (0 < N.to_nat n)%nat /\ ((req =? 0)%N = false -> cap_from_req_slotcount n = Ok req).
Proof.
  intros H. assert (C : forallb (fun q => match (if (q =? 0)%N then Ok 1%N else resreq_to_req_slotcount q) with
     | Ok n => ((N.to_nat n =? (if (q =? 0)%N then 1%nat else slots_of q))%nat && (0 <? N.to_nat n)%nat && ((q =? 0)%N || match cap_from_req_slotcount n with Ok c => (c =? q)%N | _ => false end))%bool
     | _ => false end) (map N.of_nat (seq 0 15)) = true) by (vm_compute; reflexivity).
  rewrite forallb_forall in C. specialize (C req). assert (I : In req (map N.of_nat (seq 0 15))) by (apply in_map_iff; exists (N.to_nat req); rewrite N2Nat.id; split; [reflexivity|apply in_seq; lia]).
  specialize (C I). destruct (if (req =? 0)%N then _ else _) as [n| |]; try discriminate. exists n. split; [reflexivity|]. apply andb_true_iff in C. destruct C as [C C3]. apply andb_true_iff in C. destruct C as [C1 C2].
  apply Nat.eqb_eq in C1. apply Nat.ltb_lt in C2. split; [assumption|]. split; [assumption|]. intros E. rewrite E in C3. cbn [orb] in C3. destruct (cap_from_req_slotcount n) as [c| |]; try discriminate. apply N.eqb_eq in C3. now subst.
Qed.

Lemma sub_eqb_spec a b : reflect (a = b) (sub_eqb a b).
Proof.
  destruct a as [x u], b as [y v]. unfold sub_eqb. cbn [fst snd]. destruct (Z.eqb_spec x y) as [->|N]; cbn [andb]; [|constructor; congruence].
  destruct (eqb_spec u v) as [->|N]; constructor; congruence.
Qed.
Lemma existsb_sub p l : existsb (sub_eqb p) l = true <-> In p l.
Proof. rewrite existsb_exists. split; [intros (q & H & E); destruct (sub_eqb_spec p q); [now subst|discriminate]|intros H; exists p; split; [assumption|]; destruct (sub_eqb_spec p p); congruence]. Qed.
Lemma holder_none l p : holder l p = None <-> ~ In p (flat_map gr_subs l).
Proof.
  unfold holder. rewrite in_flat_map. destruct (find _ l) as [g|] eqn:E.
  - apply find_some in E. destruct E as [I E]. apply existsb_sub in E. split; [discriminate|]. intros N. exfalso. apply N. eauto.
  - split; [|reflexivity]. intros _ (g & I & J). apply (find_none _ _ E) in I. apply existsb_sub in J. congruence.
Qed.
Lemma find_app' {A} (f : A -> bool) l m : find f (l ++ m) = match find f l with Some x => Some x | None => find f m end.
Proof. induction l as [|a l IH]; [reflexivity|]. cbn [app find]. now destruct (f a). Qed.
Lemma holder_snoc l g p : holder (l ++ [g]) p = match holder l p with Some x => Some x | None => if existsb (sub_eqb p) (gr_subs g) then Some (gr_ssi g) else None end.
Proof. unfold holder. rewrite find_app'. destruct (find _ l); [reflexivity|]. cbn [find]. now destruct (existsb _ _). Qed.

Definition gr_ok (now : Z) (g : grant_rec) : Prop :=
  gr_now g <= now /\ Forall (fun p => first_at (gr_now g) (gr_t g) <= fst p <= gr_now g + 67 /\ fst p mod 4 = gr_t g - 1) (gr_subs g) /\ length (gr_subs g) = asked (gr_req g) /\ 1 <= gr_t g <= 4.
Definition inv (s : ulsched) (now : Z) (l : list grant_rec) : Prop :=
  shape s /\ (forall y, win now y -> cell s y = (holder l (y, false), holder l (y, true))) /\
  (forall y, holder l (y, true) <> None -> holder l (y, false) <> None) /\ NoDup (flat_map gr_subs l) /\ Forall (gr_ok now) l.

Lemma inv_empty now : inv ul_empty now [].
Proof. split; [apply shape_empty|]. split; [intros y _; apply cell_empty|]. split; [intros y H; exfalso; apply H; reflexivity|]. split; [constructor|constructor]. Qed.
Lemma inv_range s now l p : inv s now l -> In p (flat_map gr_subs l) -> fst p <= now + 67.
Proof.
  intros (_ & _ & _ & _ & G) H. apply in_flat_map in H. destruct H as (g & I & J). rewrite Forall_forall in G. destruct (G g I) as (G1 & G2 & _). rewrite Forall_forall in G2. specialize (G2 p J). lia.
Qed.
Lemma tick_spec s now l : inv s now l -> exists s', ul_clear (from_int (now + 2)) s = Ok s' /\ inv s' (now + 1) l.
Proof.
  intros I. pose proof I as (S & C & H1 & H2 & H3). unfold ul_clear. rewrite add_from. replace (now + 2 + -4) with (now - 2) by lia. rewrite ul_index_from. cbn [bind]. rewrite tm_t_from.
  replace ((now + 2) mod 4) with ((now - 2) mod 4) by lia. rewrite ul_cell_from by assumption. cbn [bind]. eexists. split; [reflexivity|]. fold (setc s (now - 2) (None, None)).
  split; [now apply setc_shape|]. split; [|split; [assumption|split; [assumption|]]].
  - intros y Hy. rewrite cell_setc by assumption. destruct (Z.eq_dec y (now + 70)) as [->|N].
    + replace ((now - 2) mod 72 =? (now + 70) mod 72) with true by lia.
      assert (Q : forall b, holder l (now + 70, b) = None). { intros b. apply holder_none. intros J. apply (inv_range _ _ _ _ I) in J. cbn [fst] in J. lia. }
      now rewrite !Q.
    + unfold win in Hy. rewrite (win_mod now) by (unfold win; lia). destruct (Z.eqb_spec (now - 2) y); [lia|]. apply C. unfold win. lia.
  - revert H3. apply Forall_impl. intros g (G1 & G2). split; [lia|assumption].
Qed.

Lemma prefix_window {A} (p r : list A) k n : length (firstn n (skipn k p)) = n -> firstn n (skipn k (p ++ r)) = firstn n (skipn k p).
Proof.
  intros H. rewrite firstn_length, skipn_length in H. destruct (Nat.eq_dec n 0) as [->|N]; [reflexivity|]. rewrite skipn_app, firstn_app. replace (n - length (skipn k p))%nat with 0%nat by (rewrite skipn_length; lia).
  cbn [firstn]. apply app_nil_r.
Qed.
Lemma firstn_incl {A} (l : list A) n x : In x (firstn n l) -> In x l.
Proof. intros H. rewrite <- (firstn_skipn n l). apply in_or_app. now left. Qed.
Lemma skipn_incl {A} (l : list A) n x : In x (skipn n l) -> In x l.
Proof. intros H. rewrite <- (firstn_skipn n l). apply in_or_app. now right. Qed.
Lemma both_nodup ys : NoDup ys -> NoDup (flat_map (fun x : Z => [(x, false); (x, true)]) ys).
Proof.
  induction 1 as [|x l NI ND IH]; [constructor|]. cbn [flat_map app]. constructor.
  - intros [H|H]; [discriminate|]. apply in_flat_map in H. destruct H as (z & I & [J|[J|[]]]); injection J as ->; contradiction.
  - constructor; [|assumption]. intros H. apply in_flat_map in H. destruct H as (z & I & [J|[J|[]]]); injection J as ->; contradiction.
Qed.
Lemma in_both ys x b : In (x, b) (flat_map (fun x : Z => [(x, false); (x, true)]) ys) <-> In x ys.
Proof.
  rewrite in_flat_map. split.
  - intros (z & I & [J|[J|[]]]); injection J as -> _; assumption.
  - intros H. exists x. split; [assumption|]. destruct b; cbn; auto.
Qed.
Lemma both_length ys : length (flat_map (fun x : Z => [(x, false); (x, true)]) ys) = (2 * length ys)%nat.
Proof. induction ys as [|y ys IH]; [reflexivity|]. cbn [flat_map app length]. lia. Qed.
Lemma NoDup_app' {A} (l m : list A) : NoDup l -> NoDup m -> (forall x, In x l -> In x m -> False) -> NoDup (l ++ m).
Proof.
  intros H1 H2 D. induction H1 as [|x l NI ND IH]; [assumption|]. cbn [app]. constructor.
  - intros H. apply in_app_iff in H. destruct H as [H|H]; [contradiction|]. apply (D x); [now left|assumption].
  - apply IH. intros y I J. apply (D y); [now right|assumption].
Qed.

Lemma NoDup_app_inv' {A} (l m : list A) : NoDup (l ++ m) -> NoDup l /\ NoDup m.
Proof.
  induction l as [|x l IH]; intros H; [split; [constructor|assumption]|]. cbn [app] in H. apply NoDup_cons_iff in H. destruct H as [N H]. destruct (IH H). split; [|assumption].
  constructor; [|assumption]. intros I. apply N. apply in_or_app. now left.
Qed.

(** Adding a grant whose subslots were free. *)
Lemma inv_add s s' now l g :
  inv s now l -> gr_ok now g -> shape s' ->
  (forall y, win now y -> cell s' y = (match holder l (y, false) with Some x => Some x | None => if existsb (sub_eqb (y, false)) (gr_subs g) then Some (gr_ssi g) else None end,
                                       match holder l (y, true) with Some x => Some x | None => if existsb (sub_eqb (y, true)) (gr_subs g) then Some (gr_ssi g) else None end)) ->
  NoDup (gr_subs g) -> Forall (fun p => holder l p = None) (gr_subs g) -> (forall y, In (y, true) (gr_subs g) -> In (y, false) (gr_subs g) \/ holder l (y, false) <> None) ->
  inv s' now (l ++ [g]).
Proof.
  intros (S & C & H1 & H2 & H3) G S' C' ND F T. split; [assumption|]. split; [|split; [|split]].
  - intros y Hy. rewrite !holder_snoc. exact (C' y Hy).
  - intros y. rewrite !holder_snoc. specialize (H1 y). specialize (T y). destruct (holder l (y, false)); [discriminate|]. intros H.
    destruct (holder l (y, true)); [exfalso; apply H1; congruence|]. destruct (existsb (sub_eqb (y, true)) _) eqn:E; [|exfalso; apply H; reflexivity]. apply existsb_sub in E. destruct (T E) as [T'|T']; [|exfalso; apply T'; reflexivity].
    apply existsb_sub in T'. rewrite T'. discriminate.
  - rewrite flat_map_app. cbn [flat_map]. rewrite app_nil_r. apply NoDup_app'; [assumption|assumption|]. intros p I J. rewrite Forall_forall in F. specialize (F p J). apply holder_none in F. contradiction.
  - apply Forall_app. split; [assumption|]. constructor; [assumption|constructor].
Qed.

Lemma freec_sfree s now l req y : inv s now l -> win now y -> freec s (req =? 0)%N y = sfree l req y.
Proof.
  intros (_ & C & _) W. unfold freec, sfree. rewrite (C y W). unfold cell_free. cbn [fst snd]. destruct (req =? 0)%N, (holder l (y, false)), (holder l (y, true)); reflexivity.
Qed.

Lemma req_spec s now l t ssi req : inv s now l -> 1 <= t <= 4 -> (req <= 14)%N ->
  exists g s', ul_process_cap_req (from_int now) t ssi req s = Ok (g, s') /\
  match g with
  | Some g => inv s' now (l ++ [mk_gr now t ssi req g])
  | None => s' = s /\ forall k, (k + need req <= length (opportunities 17 (first_at now t)))%nat ->
                                Exists (fun y => sfree l req y = false) (firstn (need req) (skipn k (opportunities 17 (first_at now t))))
  end.
Proof.
  intros I Ht Hr. destruct (req_table req Hr) as (n & E1 & E2 & E3 & E4). unfold ul_process_cap_req. rewrite E1. cbn [bind]. unfold ul_find_grant_opportunity. rewrite forward_from by assumption.
  assert (EA : (negb (req =? 0)%N || (N.to_nat n =? 1)%nat)%bool = true) by (rewrite E2; destruct (req =? 0)%N; reflexivity). rewrite EA. cbn [assert bind].
  pose proof (first_at_spec now t Ht) as (FR & FM). set (F := first_at now t) in *. pose proof I as (S & C & H1 & H2 & H3).
  assert (EN : N.to_nat n = need req) by exact E2. rewrite EN in *.
  destruct (find_loop_spec s F t (need req) (req =? 0)%N S Ht FM E3 17 0 0 []) as (r & EL & HL).
  { apply Nat.le_0_l. } { reflexivity. } { constructor. } { cbn. assumption. } { left; reflexivity. } { intros k Hk. cbn in Hk. lia. }
  change (MACSCHED_NUM_FRAMES - 1)%nat with 17%nat. rewrite EL. cbn [bind]. change (0 + 17)%nat with 17%nat in HL.
  assert (W17 : forall y, In y (opportunities 17 F) -> win now y /\ F <= y <= now + 67 /\ y mod 4 = t - 1).
  { intros y Hy. apply opps_range in Hy. change (Z.of_nat 17) with 17 in Hy. unfold win. split; [lia|]. split; [lia|]. lia. }
  destruct r as [[k ts]|].
  - cbv zeta in HL. destruct HL as (L1 & L2 & L3). set (ys := firstn (need req) (skipn k (opportunities 17 F))) in *.
    assert (Iys : forall y, In y ys -> win now y /\ F <= y <= now + 67 /\ y mod 4 = t - 1) by (intros y Hy; apply W17; eapply skipn_incl; eapply firstn_incl; exact Hy).
    assert (NDy : NoDup ys).
    { subst ys. pose proof (opps_nodup 17 F) as Q. rewrite <- (firstn_skipn k (opportunities 17 F)) in Q. apply NoDup_app_inv' in Q. destruct Q as [_ Q]. rewrite <- (firstn_skipn (need req) (skipn k (opportunities 17 F))) in Q. exact (proj1 (NoDup_app_inv' _ _ Q)). }
    assert (EY : firstn (need req) (skipn k (opportunities 40 F)) = ys) by (destruct (opps_prefix 17 40 F) as (r & Er); [lia|]; rewrite Er; apply prefix_window; assumption).
    assert (ED : delay_of (if (k =? 0)%nat then GdNext else GdDelay (N.of_nat k)) = k) by (destruct (Nat.eqb_spec k 0) as [->|]; cbn; lia).
    assert (SF : Forall (fun y => sfree l req y = true) ys) by (rewrite Forall_forall in *; intros y Hy; rewrite <- (freec_sfree s now) by (auto; apply Iys; assumption); auto).
    destruct (req =? 0)%N eqn:Eq.
    + (* one subslot *)
      assert (E1n : need req = 1%nat) by (unfold need; rewrite Eq; reflexivity). rewrite E1n in *.
      destruct ys as [|x [|x2 yr]] eqn:EYS; try discriminate L1. subst ts. cbn [map]. unfold ul_reserve_grant. cbn [negb orb assert bind]. rewrite ul_index_from. cbn [bind]. rewrite tm_t_from, ul_cell_from by assumption. cbn [bind].
      destruct (Iys x) as (Wx & Rx & Mx); [now left|]. rewrite (C x Wx). cbn [fst snd].
      apply Forall_inv in SF. unfold sfree in SF. rewrite Eq in SF.
      assert (TOLD : forall c b, ((c =? 0)%N = true /\ b = false \/ (c =? 0)%N = false /\ (c =? 15)%N = true /\ b = true) ->
                told now t (mk_sg c (if (k =? 0)%nat then GdNext else GdDelay (N.of_nat k))) = [(x, b)]).
      { intros c b Hc. unfold told. cbn [sg_cap sg_delay]. fold F. rewrite ED, EY. destruct Hc as [[-> ->]|(-> & -> & ->)]; reflexivity. }
      assert (ADD : forall c b d, ((c =? 0)%N = true /\ b = false \/ (c =? 0)%N = false /\ (c =? 15)%N = true /\ b = true) -> holder l (x, b) = None ->
                (b = true -> holder l (x, false) <> None) -> d = (if b then (holder l (x, false), Some ssi) else (Some ssi, holder l (x, true))) ->
                inv (setc s x d) now (l ++ [mk_gr now t ssi req (mk_sg c (if (k =? 0)%nat then GdNext else GdDelay (N.of_nat k)))])).
      { intros c b d Hc Hn Hb ->. set (g := mk_gr now t ssi req _). assert (GS : gr_subs g = [(x, b)]) by (apply TOLD; assumption).
        apply (inv_add s); try assumption.
        - split; [subst g; cbn; lia|]. rewrite GS. subst g. cbn [gr_now gr_t gr_req]. fold F. split; [constructor; [cbn [fst]; lia|constructor]|]. split; [unfold asked; rewrite Eq; reflexivity|assumption].
        - now apply setc_shape.
        - intros y Wy. rewrite cell_setc by assumption. rewrite (win_mod now) by assumption. rewrite GS. subst g. cbn [existsb gr_ssi]. rewrite !orb_false_r. unfold sub_eqb. cbn [fst snd]. rewrite (Z.eqb_sym y x).
          destruct (Z.eqb_spec x y) as [->|N]; cbn [andb].
          + destruct b; cbn [Bool.eqb]; rewrite Hn; [destruct (holder l (y, false)); reflexivity|destruct (holder l (y, true)); reflexivity].
          + rewrite (C y Wy). destruct (holder l (y, false)), (holder l (y, true)); reflexivity.
        - rewrite GS. constructor; [intros []|constructor].
        - rewrite GS. constructor; [assumption|constructor].
        - rewrite GS. intros y [E|[]]. injection E as <- ->. right. apply Hb. reflexivity. }
      destruct (holder l (x, false)) as [o|] eqn:EO1; cbn [isnone orb] in *.
      * destruct (holder l (x, true)) as [o2|] eqn:EO2; [discriminate SF|]. cbn [assert bind isnone]. change ((2 =? 1)%N) with false. change ((2 =? 2)%N) with true. cbn [bind].
        eexists. eexists. split; [reflexivity|]. fold (setc s x (Some o, Some ssi)). apply (ADD 15%N true); try assumption; try (intros _; discriminate); try reflexivity. right. repeat split; reflexivity.
      * change ((1 =? 1)%N) with true. cbn [bind]. eexists. eexists. split; [reflexivity|]. fold (setc s x (Some ssi, holder l (x, true))).
        apply (ADD 0%N false); try assumption; try (intros; discriminate); try reflexivity. left. repeat split; reflexivity.
    + (* full slots *)
      assert (FREE : Forall (fun y => holder l (y, false) = None /\ holder l (y, true) = None) ys).
      { revert SF. apply Forall_impl. intros y. unfold sfree. rewrite Eq. destruct (holder l (y, false)); [discriminate|]. destruct (holder l (y, true)); [discriminate|]. auto. }
      destruct (reserve_full_spec now ssi ys s S NDy) as (s' & ER & S' & C').
      { apply Forall_forall. intros y Hy. now apply Iys. }
      { rewrite Forall_forall in *. intros y Hy. destruct (FREE y Hy) as [A B]. rewrite (C y) by now apply Iys. now rewrite A, B. }
      assert (ERG : ul_reserve_grant ssi ts false s = Ok (0%N, s')).
      { unfold ul_reserve_grant. rewrite L2. destruct (map from_int ys) as [|z zs] eqn:EZ; [apply (f_equal (@length _)) in EZ; rewrite map_length, L1 in EZ; cbn in EZ; lia|]. cbn [negb orb assert bind]. rewrite ER. reflexivity. }
      rewrite ERG. cbn [bind]. rewrite (E4 eq_refl). cbn [bind]. eexists. eexists. split; [reflexivity|]. cbv beta iota.
      set (g := mk_gr now t ssi req (mk_sg req (if (k =? 0)%nat then GdNext else GdDelay (N.of_nat k)))).
      assert (GS : gr_subs g = flat_map (fun x : Z => [(x, false); (x, true)]) ys).
      { unfold gr_subs. subst g. cbn [gr_now gr_t gr_grant]. unfold told. cbn [sg_cap sg_delay]. rewrite Eq. destruct (N.eqb_spec req 15); [lia|]. fold F. rewrite ED. rewrite <- EY. unfold need. now rewrite Eq. }
      apply (inv_add s); try assumption.
      * split; [subst g; cbn; lia|]. rewrite GS. subst g. cbn [gr_now gr_t gr_req]. fold F. split; [|split; [|assumption]].
        -- apply Forall_forall. intros [y b] Hp. apply in_both in Hp. cbn [fst]. apply Iys in Hp. lia.
        -- rewrite both_length, L1. unfold need, asked. now rewrite Eq.
      * intros y Wy. rewrite (C' y Wy), GS. subst g. cbn [gr_ssi].
        assert (EX : forall b, existsb (sub_eqb (y, b)) (flat_map (fun x : Z => [(x, false); (x, true)]) ys) = existsb (Z.eqb y) ys).
        { intros b. apply eq_iff_eq_true. rewrite existsb_sub, in_both, existsb_exists. split; [intros H; exists y; split; [assumption|apply Z.eqb_refl]|intros (z & Hz & E); apply Z.eqb_eq in E; now subst]. }
        rewrite !EX. destruct (existsb (Z.eqb y) ys) eqn:EE.
        -- apply existsb_exists in EE. destruct EE as (z & Hz & E). apply Z.eqb_eq in E. subst z. rewrite Forall_forall in FREE. destruct (FREE y Hz) as [-> ->]. reflexivity.
        -- rewrite (C y Wy). destruct (holder l (y, false)), (holder l (y, true)); reflexivity.
      * rewrite GS. now apply both_nodup.
      * rewrite GS. apply Forall_forall. intros [y b] Hp. apply in_both in Hp. rewrite Forall_forall in FREE. destruct (FREE y Hp) as [A B]. now destruct b.
      * rewrite GS. intros y Hy. left. apply in_both in Hy. now apply in_both.
  - eexists. eexists. split; [reflexivity|]. split; [reflexivity|]. intros k Hk. specialize (HL k Hk). apply Exists_exists in HL. destruct HL as (y & Hy & Ey). apply Exists_exists. exists y. split; [assumption|].
    rewrite <- (freec_sfree s now l req y I); [assumption|]. apply W17. eapply skipn_incl. eapply firstn_incl. exact Hy.
Qed.

Lemma run_inv : forall evs s now l, inv s now l -> Forall ul_event_ok evs -> exists s' now' l', ul_run s now l evs = Ok (s', now', l') /\ inv s' now' l'.
Proof.
  induction evs as [|e evs IH]; intros s now l I F; [exists s, now, l; split; [reflexivity|assumption]|]. pose proof (Forall_inv F) as He. pose proof (Forall_inv_tail F) as Fr. destruct e as [|t ssi req]; cbn [ul_run].
  - destruct (tick_spec s now l I) as (s' & -> & I'). cbn [bind]. now apply IH.
  - destruct He as (Ht & Hr). destruct (req_spec s now l t ssi req I Ht Hr) as (g & s' & -> & H). cbn [bind]. destruct g as [g|]; [now apply IH|]. destruct H as [-> _]. now apply IH.
Qed.

(** ** Facts used by the property theorems *)
Lemma grants_sound start evs : Forall ul_event_ok evs ->
  exists s now l, ul_run ul_empty start [] evs = Ok (s, now, l) /\
    NoDup (flat_map gr_subs l) /\
    (forall g, In g l -> length (gr_subs g) = asked (gr_req g) /\
       forall x h, In (x, h) (gr_subs g) -> first_at (gr_now g) (gr_t g) <= x <= gr_now g + 67 /\ x mod 4 = gr_t g - 1) /\
    (forall x, now - 2 <= x <= now + 69 ->
       ul_get_slot_owner (from_int x) Block1 s = Ok (holder l (x, false)) /\ ul_get_slot_owner (from_int x) Block2 s = Ok (holder l (x, true)) /\
       exists u, ul_get_usage (from_int x) s = Ok u).
Proof.
  intros F. destruct (run_inv evs _ start [] (inv_empty start) F) as (s & now & l & E & I). exists s, now, l. split; [assumption|]. destruct I as (S & C & H1 & H2 & H3). split; [assumption|]. split.
  - intros g Hg. rewrite Forall_forall in H3. destruct (H3 g Hg) as (_ & G2 & G3 & _). split; [assumption|]. intros x h Hx. rewrite Forall_forall in G2. exact (G2 _ Hx).
  - intros x Hx. unfold ul_get_slot_owner, ul_get_usage. rewrite ul_index_from, tm_t_from. cbn [bind]. rewrite ul_cell_from, (C x Hx) by assumption. cbn [bind fst snd]. split; [reflexivity|]. split; [reflexivity|].
    specialize (H1 x). destruct (holder l (x, false)) as [a|], (holder l (x, true)) as [b|]; eauto. exfalso. apply H1; congruence.
Qed.
Lemma refusal_justified start evs s now l t ssi req s' : Forall ul_event_ok evs -> 1 <= t <= 4 -> (req <= 14)%N ->
  ul_run ul_empty start [] evs = Ok (s, now, l) -> ul_process_cap_req (from_int now) t ssi req s = Ok (None, s') ->
  s' = s /\ let ops := opportunities 17 (first_at now t) in
  forall k, (k + need req <= length ops)%nat -> exists y, In y (firstn (need req) (skipn k ops)) /\ sfree l req y = false.
Proof.
  intros F Ht Hr E1 E2. destruct (run_inv evs _ start [] (inv_empty start) F) as (s0 & now0 & l0 & E & I). assert (Q : (s0, now0, l0) = (s, now, l)) by congruence. injection Q as -> -> ->.
  destruct (req_spec s now l t ssi req I Ht Hr) as (g & s2 & E3 & H). rewrite E3 in E2. destruct g; [discriminate|]. destruct H as [-> H]. split; [congruence|]. intros ops k Hk. apply Exists_exists. exact (H k Hk).
Qed.
Lemma grant_future now : first_at now ((now - 2) mod 4 + 1) = now + 2.
Proof. unfold first_at. lia. Qed.
Lemma request15_panics now t ssi s : ul_process_cap_req (from_int now) t ssi 15 s = Panic.
Proof. reflexivity. Qed.
Definition fill_history : list ul_event := map (fun i => UlReq 1 (N.of_nat i) 1) (seq 0 14).
Definition fill_result := match ul_run ul_empty 0 [] fill_history with Ok x => x | _ => (ul_empty, 0, []) end.
Definition fill_next := match ul_process_cap_req (from_int (snd (fst fill_result))) 1 7 1 (fst (fst fill_result)) with Ok (Some g, s) => (g, s) | _ => (mk_sg 0 GdNext, ul_empty) end.
Lemma delay_code_refuted : exists evs s now l g s', Forall ul_event_ok evs /\ ul_run ul_empty 0 [] evs = Ok (s, now, l) /\
  ul_process_cap_req (from_int now) 1 7 1 s = Ok (Some g, s') /\ gd_into_raw (sg_delay g) = gd_into_raw GdFrame18 /\ sg_delay g <> GdFrame18.
Proof.
  exists fill_history, (fst (fst fill_result)), (snd (fst fill_result)), (snd fill_result), (fst fill_next), (snd fill_next).
  split; [repeat constructor; vm_compute; discriminate|]. split; [vm_compute; reflexivity|]. split; [vm_compute; reflexivity|]. split; [vm_compute; reflexivity|vm_compute; discriminate].
Qed.
