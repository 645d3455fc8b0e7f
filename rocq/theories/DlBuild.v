(** The downlink scheduler: building one slot. *)
From Coq Require Import Arith.
From Verif Require Import Base BitsLib BitBuffer BitBufferProofs BitBufferOps Codec CodecProofs MacFields MacPdus Layout LayoutProofs
  MacSpec MacPdusProofs FillBits BsFrag FragSpec FillProofs FragProofs TxReceipt TdmaTime DlSched DlSchedSpec DlChunk.
Open Scope nat_scope.

Definition busy (e : dl_elem) : bool := is_frag e || is_resource e.
Definition line (q : list dl_elem) : list dl_elem := filter is_frag q ++ filter is_resource q.
Definition elem_ok (e : dl_elem) : Prop :=
  match e with DlResource p sdu rep => good_message p sdu rep | DlFrag f => fg_ok f | _ => True end.

Lemma take_first_none f q : forallb (fun e => negb (f e)) q = true -> take_first f q = None.
Proof.
  induction q as [|e q IH]; [reflexivity|]. cbn [forallb take_first]. intros H. apply andb_prop in H. destruct H as (A & B).
  apply negb_true_iff in A. rewrite A, (IH B). reflexivity.
Qed.
Lemma take_first_filter f q : match take_first f q with
  | Some (x, q') => filter f q = x :: filter f q' /\ (forall g, (forall e, f e = true -> g e = false) -> filter g q' = filter g q) /\ (forall P, Forall P q -> P x /\ Forall P q') /\ length q = S (length q') /\ f x = true
  | None => filter f q = [] end.
Proof.
  induction q as [|e q IH]; [reflexivity|]. cbn [take_first filter]. destruct (f e) eqn:E.
  - split; [reflexivity|]. split.
    + intros g G. rewrite (G e E). reflexivity.
    + split; [|auto]. intros P F. inversion F; auto.
  - destruct (take_first f q) as [[x q']|]; [|assumption]. destruct IH as (A & B & C & D & X). cbn [filter length]. rewrite E.
    split; [assumption|]. split; [intros g G; rewrite (B g G); reflexivity|]. split; [|split; [lia|assumption]].
    intros P F. inversion F; subst. destruct (C P H2). auto.
Qed.
Lemma take_item q : forallb busy q = true -> q <> [] -> exists e q', dl_take_item false q = Some (e, q') /\ line q = e :: line q' /\
  forallb busy q' = true /\ (forall P, Forall P q -> P e /\ Forall P q') /\ length q = S (length q') /\ busy e = true.
Proof.
  intros B N0. unfold dl_take_item.
  rewrite take_first_none.
  2:{ apply forallb_forall. intros e I. rewrite forallb_forall in B. specialize (B e I). destruct e; auto; discriminate. }
  assert (FB : forall q', (forall P, Forall P q -> Forall P q') -> forallb busy q' = true).
  { intros q' P. apply forallb_forall, Forall_forall. apply P. apply Forall_forall. now apply forallb_forall. }
  pose proof (take_first_filter is_frag q) as T. destruct (take_first is_frag q) as [[x q']|].
  - destruct T as (A & C & D & L & X). exists x, q'. split; [reflexivity|]. unfold line. rewrite A.
    rewrite (C is_resource) by (intros []; cbn; congruence). split; [reflexivity|].
    split; [apply FB; intros P F; apply (D P F)|]. split; [assumption|]. split; [assumption|]. unfold busy. now rewrite X.
  - pose proof (take_first_filter is_resource q) as T2. destruct (take_first is_resource q) as [[x q']|].
    + destruct T2 as (A & C & D & L & X). exists x, q'. split; [reflexivity|]. unfold line. rewrite A, <- (C is_frag) by (intros []; cbn; congruence).
      rewrite (C is_frag), T by (intros []; cbn; congruence). split; [reflexivity|].
      split; [apply FB; intros P F; apply (D P F)|]. split; [assumption|]. split; [assumption|]. unfold busy. rewrite X. apply orb_true_r.
    + exfalso. destruct q as [|e q]; [congruence|]. cbn [forallb filter] in *. apply andb_prop in B. destruct B as (B & _). unfold busy in B.
      destruct (is_frag e); [discriminate|]. destruct (is_resource e); [discriminate|]. discriminate.
Qed.

(** The fragmenter made for an element *)
Definition fg_of (e : dl_elem) : fragger :=
  match e with DlResource p sdu rep => mk_fg p false false sdu rep | DlFrag f => f | _ => mk_fg mr_null_pdu false true (bb_new 0) None end.
Lemma fg_of_ok e : busy e = true -> elem_ok e -> fg_ok (fg_of e) /\ entry_of e = [en_of (fg_of e)].
Proof.
  destruct e as [|a|a g|p sdu rep|f|b rep]; try discriminate; cbn [elem_ok fg_of].
  - intros _ (S & W & P & R & N0). split; [|reflexivity]. unfold fg_ok, hdr_bits. cbn [fg_done fg_sdu fg_res fg_rep fg_hdr]. tauto.
  - intros _ F. split; [assumption|reflexivity].
Qed.
Definition all_frags (l : list dl_elem) : Prop := Forall (fun e => exists f, e = DlFrag f /\ fg_ok f) l.

Definition blk_of (buf : option bitbuf) : bitbuf := match buf with Some b => b | None => bb_new SCH_F_CAP end.
Lemma blk_new_ok : blk_ok (bb_new SCH_F_CAP).
Proof.
  assert (L : length (remaining (bb_new SCH_F_CAP)) = 268) by (unfold remaining; rewrite bits_rng_length; reflexivity).
  split; [|split; [left; rewrite L; reflexivity|lia]]. split; [apply wf_new|]. split; [reflexivity|]. rewrite L. split; [lia|]. left. reflexivity.
Qed.
Lemma blk_step b b' w : blk_ok b -> wrote b b' w -> length w <= length (remaining b) -> (length w mod 8 = 0 \/ length w = length (remaining b)) ->
  blk_ok b' /\ length (remaining b') = length (remaining b) - length w.
Proof.
  intros ((W & A & C & AL) & M & Z) O L1 L2. pose proof (wrote_rem_len _ _ _ W O L1) as RL.
  destruct O as (W1 & S1 & A1 & P1 & _). split; [|assumption].
  assert (D8 : forall a c, c mod 8 = 0 -> c <= a -> (a - c) mod 8 = a mod 8).
  { intros a c E Q. pose proof (Nat.div_mod_eq c 8). replace a with ((a - c) + c / 8 * 8) at 2 by lia. now rewrite Nat.mod_add by lia. }
  assert (D9 : forall a c, a mod 8 = 0 -> c mod 8 = 0 -> (a + c) mod 8 = 0).
  { intros a c E Q. rewrite Nat.add_mod, E, Q by lia. reflexivity. }
  split.
  - split; [assumption|]. split; [congruence|]. split; [lia|]. rewrite RL, P1, S1. destruct L2 as [L2|L2]; [|right; lia].
    destruct AL as [AL|AL]; [|right; lia]. left. destruct W as (W & _). replace (bpos b + length w - bstart b) with ((bpos b - bstart b) + length w) by lia. now apply D9.
  - split; [|lia]. rewrite RL. destruct L2 as [L2|L2]; [|right; lia]. destruct M as [M|M]; [|right; lia]. left. now rewrite D8.
Qed.

Definition hw (e : entry) : nat := width (mr_layout (en_hdr e)).
(** Everyone in turn: some are finished, perhaps one is served in part, the others wait. *)
Inductive in_turn : list entry -> list item -> list entry -> Prop :=
| turn_rest es : in_turn es [] es
| turn_part e es i e' : served e [i] [e'] [] -> en_going e' = true -> in_turn (e :: es) [i] (e' :: es)
| turn_done e es i is es' m : served e [i] [] m -> in_turn es is es' -> in_turn (e :: es) (i :: is) es'.

Lemma served_shape f is dn f' m : served (en_of f) is (if dn : bool then [] else [en_of f']) m -> is <> [] -> exists i, is = [i].
Proof. intros S N0. inversion S; subst; try congruence; eexists; reflexivity. Qed.

Lemma width_app a b : width (a ++ b) = width a + width b.
Proof. unfold width. rewrite map_app. induction (map snd a) as [|x l IH]; [reflexivity|]. cbn [app list_sum fold_right]. change (list_sum (l ++ map snd b)) with (list_sum (l ++ map snd b)). unfold list_sum in *. cbn [fold_right]. lia. Qed.
Lemma mr_width_max p : width (mr_layout p) <= 110.
Proof.
  unfold mr_layout. rewrite !width_app.
  assert (width (mr_addr_layout p) <= 40) by (unfold mr_addr_layout; destruct (mr_addr p), (mr_el p), (mr_um p); cbn; lia).
  assert (width [(0%N, 2); fl (mr_fill p); (mr_pog p, 1); (mr_encmode p, 2); fl (mr_raf p); (mr_len p, 6)] = 13) by reflexivity.
  destruct (mr_is_null p); [change (width []) with 0; lia|]. rewrite !width_app.
  assert (width (optl (mr_pc p) (fun v => [(v, 4)])) <= 5) by (destruct (mr_pc p); cbn; lia).
  assert (width (optl (mr_sg p) sg_layout) <= 9) by (destruct (mr_sg p); cbn; lia).
  assert (width (optl (mr_ca p) ca_layout) <= 40) by (destruct (mr_ca p) as [c|]; [|cbn; lia]; cbn [optl]; unfold ca_layout; destruct (ca_ts c) as [[[? ?] ?] ?]; destruct (ca_f18_mon c); cbn; lia).
  lia.
Qed.
Lemma build_spec n : forall q next buf,
  forallb busy q = true -> Forall elem_ok q -> length q <= n -> blk_ok (blk_of buf) ->
  exists b' w is next' m,
    build_loop n false q next buf = Ok (match q with [] => buf | _ => Some b' end, [], next ++ next', m) /\
    (q = [] -> b' = blk_of buf) /\
    all_frags next' /\ wrote (blk_of buf) b' w /\ blk_ok b' /\ length w <= length (remaining (blk_of buf)) /\
    served_all (entries (line q)) is (entries next') m /\
    (q <> [] -> length (remaining (blk_of buf)) = 268 -> is <> []) /\
    (forall k tail, length (w ++ tail) = length (remaining (blk_of buf)) -> length (w ++ tail) <= k ->
       exists j, items true k (w ++ tail) = option_map (app is) (items true j tail)) /\
    (forall h, 32 <= h -> Forall (fun e => hw e = h) (entries (line q)) -> Forall (fun e => en_going e = false) (entries (line q)) ->
       length (remaining (blk_of buf)) < h -> is = [] /\ entries next' = entries (line q)) /\
    (forall h, 32 <= h -> Forall (fun e => hw e = h) (entries (line q)) ->
       match entries (line q) with [] => True | e :: t => (en_going e = true -> 16 <= length (remaining (blk_of buf))) /\ Forall (fun e => en_going e = false) t end ->
       in_turn (entries (line q)) is (entries next')).
Proof.
  induction n as [|n IH]; intros q next buf HB HF HL HK.
  - assert (q = []) as -> by (destruct q; [reflexivity|cbn in HL; lia]).
    exists (blk_of buf), [], [], [], []. rewrite app_nil_r. split; [reflexivity|]. split; [auto|]. split; [constructor|].
    split; [apply wrote_nil, HK|]. split; [assumption|]. split; [cbn; lia|]. split; [constructor|]. split; [congruence|].
    split; [intros k tail _ _; exists k; cbn [app]; destruct (items true k tail); reflexivity|]. split; [auto|]. intros. constructor.
  - destruct q as [|e0 q0].
    { exists (blk_of buf), [], [], [], []. rewrite app_nil_r. split; [reflexivity|]. split; [auto|]. split; [constructor|].
      split; [apply wrote_nil, HK|]. split; [assumption|]. split; [cbn; lia|]. split; [constructor|]. split; [congruence|].
      split; [intros k tail _ _; exists k; cbn [app]; destruct (items true k tail); reflexivity|]. split; [auto|]. intros. constructor. }
    destruct (take_item (e0 :: q0) HB ltac:(discriminate)) as (e & q & ET & EL & HB' & HP & LQ & Be).
    destruct (HP _ HF) as (He & HF').
    destruct (fg_of_ok e Be He) as (FO & EE).
    destruct (chunk_spec (fg_of e) (blk_of buf) FO HK) as (dn & f' & blk' & w & is & EC & O & ED & FO' & HH & SV & LW & LM & CASES).
    clear ED.     destruct (blk_step _ _ _ HK O LW LM) as (HK' & RL).
    set (nx := if dn then [] else [DlFrag f']).
    assert (EP : put_chunk (fg_of e) buf next = Ok (blk', next ++ nx, marks dn f')).
    { unfold put_chunk. fold (blk_of buf). rewrite EC. cbn [bind]. unfold nx, marks. destruct dn; [rewrite app_nil_r|]; reflexivity. }
    destruct (IH q (next ++ nx) (Some blk') HB' HF' ltac:(lia) HK') as (b2 & w2 & is2 & nx2 & m2 & EB & EQ0 & AF & O2 & HK2 & LW2 & SV2 & _ & IT2 & LT2 & TU2).
    cbn [blk_of] in O2, LW2, IT2, LT2, TU2, EQ0.
    assert (HH' : forall h, hw (en_of (fg_of e)) = h -> hdr_bits (fg_of e) = h) by (intros h Q; exact Q).
    assert (ENX : entries (nx ++ nx2) = (if dn then [] else [en_of f']) ++ entries nx2).
    { unfold entries. rewrite flat_map_app. unfold nx. destruct dn; reflexivity. }
    assert (ELN : entries (line (e0 :: q0)) = en_of (fg_of e) :: entries (line q)).
    { rewrite EL. unfold entries. cbn [flat_map]. rewrite EE. reflexivity. }
    exists b2, (w ++ w2), (is ++ is2), (nx ++ nx2), (marks dn f' ++ m2).
    split.
    { cbn [build_loop]. rewrite ET.
      assert (EB' : build_loop n false q (next ++ nx) (Some blk') = Ok (Some b2, [], (next ++ nx) ++ nx2, m2)).
      { rewrite EB. destruct q; [rewrite (EQ0 eq_refl)|]; reflexivity. }
      rewrite app_assoc. destruct e as [|a|a g|p sdu rep|f|b rep]; try discriminate.
      - cbn [elem_ok] in He. destruct He as (_ & W & P & _).
        unfold fg_new. rewrite pos_ok by assumption. rewrite P, Nat.sub_diag. cbn [bind Nat.eqb assert].
        cbn [fg_of] in EP. rewrite EP. cbn [bind]. rewrite EB'. reflexivity.
      - cbn [fg_of] in EP. rewrite EP. cbn [bind]. rewrite EB'. reflexivity. }
    split; [discriminate|].
    split. { apply Forall_app. split; [|assumption]. unfold nx. destruct dn; constructor; [|constructor]. exists f'. auto. }
    split; [exact (wrote_trans _ _ _ _ _ O O2)|]. split; [assumption|].
    split; [rewrite app_length; lia|].
    split. { rewrite ELN, ENX. now apply served_next. }
    split.
    { intros _ C268 HN. apply app_eq_nil in HN. destruct HN as (-> & _). destruct CASES as [(_ & _ & _ & _ & C1 & C2)|(_ & C & _)]; [|congruence].
      rewrite C268 in *. pose proof (mr_width_max (fg_res (fg_of e))) as MX. change (width (mr_layout (fg_res (fg_of e)))) with (hdr_bits (fg_of e)) in MX.
      destruct (fg_hdr (fg_of e)); [specialize (C2 eq_refl)|specialize (C1 eq_refl)]; lia. }
    split.
    { intros k tail HT Hk. rewrite <- app_assoc in *. rewrite app_length in HT, Hk.
      destruct CASES as [(-> & -> & _)|(Hw & _ & IT & _)].
      - cbn [app length] in *. destruct (IT2 k tail) as (j & Q); [lia|lia|]. exists j. exact Q.
      - assert (1 <= length w) by (destruct w; [congruence|cbn; lia]). destruct k as [|k]; [lia|].
        rewrite (IT true k (w2 ++ tail)) by (rewrite app_length; lia).
        destruct (IT2 k tail) as (j & Q); [lia|lia|]. exists j. rewrite Q. destruct (items true j tail); [cbn [option_map]; now rewrite <- app_assoc|reflexivity]. }
    rewrite ELN, ENX. split.
    { intros h H32 FW FG CAP. inversion FW as [|? ? W1 W2]; inversion FG as [|? ? G1 G2]; subst.
      cbn [en_going en_of] in G1. destruct CASES as [(-> & -> & -> & -> & C1 & C2)|(Hw & Hi & IT & C1 & C2)].
      - cbn [length] in RL. rewrite Nat.sub_0_r in RL.
        destruct (LT2 _ H32 W2 G2) as (A & B); [lia|]. cbn [app]. split; [assumption|]. now rewrite B.
      - exfalso. specialize (C1 G1). unfold hw, hdr_bits in *. cbn [en_hdr en_of] in *. lia. }
    intros h H32 FW (G1 & G2). inversion FW as [|? ? W1 W2]; subst.
    destruct CASES as [(-> & -> & -> & -> & C1 & C2)|(Hw & Hi & IT & C1 & C2)].
    + cbn [length] in RL. rewrite Nat.sub_0_r in RL. cbn [en_going en_of] in G1. destruct (fg_hdr (fg_of e)) eqn:EG; [specialize (C2 eq_refl); specialize (G1 eq_refl); lia|].
      specialize (C1 eq_refl). destruct (LT2 _ H32 W2 G2) as (A & B); [rewrite RL; unfold hw, hdr_bits in *; cbn [en_hdr en_of] in *; lia|].
      cbn [app]. rewrite A, B. constructor.
    + destruct (served_shape _ _ _ _ _ SV Hi) as (i & ->). destruct dn.
      * cbn [app] in *. eapply turn_done; [exact SV|]. apply (TU2 _ H32 W2). destruct (entries (line q)) as [|e1 t]; [exact Logic.I|].
        inversion G2; subst. split; [congruence|assumption].
      * destruct (C2 eq_refl) as (C3 & C4). destruct (LT2 _ H32 W2 G2) as (A & B); [rewrite RL, C4; unfold hw; pose proof (mr_width_min (en_hdr (en_of (fg_of e)))); lia|].
        rewrite A, B. cbn [app]. apply turn_part; [exact SV|exact C3].
Qed.
