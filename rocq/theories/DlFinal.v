(** The downlink scheduler: what a tick does to the queue of a timeslot, and what is sent. *)
From Coq Require Import Arith.
From Verif Require Import Base BitsLib BitBuffer BitBufferProofs BitBufferOps Codec CodecProofs MacFields MacPdus MacBroadcast Layout LayoutProofs
  MacSpec MacPdusProofs FillBits BsFrag FragSpec FillProofs FragProofs TxReceipt TdmaTime TdmaTimeProofs UmacCircuits UmacCircuitsProofs UlSched LlcBits
  DlSched DlSchedSpec DlChunk DlBuild DlNotes DlSlot.
Open Scope nat_scope.

Lemma finalize_inv s slot s' m : finalize_ts s = Ok (slot, s', m) ->
  exists dla hang o1 o2 s1 b1 k1 u,
    let ts := add_timeslots (ds_cur s) 1 in
    slot_content ts (dla && negb (tm_f ts =? 18)%Z) hang (set_pre (stamp ts (ds_pre s)) s) = Ok (o1, o2, s1, m) /\
    (o1 = Some b1 \/ (o1 = None /\ generate_default ts s1 = Ok b1)) /\ (o1 <> None -> tm_f ts <> 18%Z) /\
    try_add_null b1 = Ok k1 /\ rewind k1 = Ok (sl_blk1 slot) /\ sl_ts slot = ts /\ s' = set_ul u s1.
Proof.
  intros E. unfold finalize_ts in E. cbv zeta in E.
  bi E. bi E. bi E. bi E. destruct x2 as [[[o1 o2] s1] m1]. cbn [fst snd] in E.
  bi E. bi E. bi E. bi E. bi E. bi E. bi E. bi E. bi E. bi E. injection E as E Es Em. rewrite Em in *.
  exists x, x1, o1, o2, s1, x4, x6, x11. cbv zeta. split; [exact E3|].
  split. { destruct o1; [left; congruence|right; auto]. }
  split. { intros N0. destruct o1; [|congruence]. cbn [isnone orb] in E4. intros Q. rewrite Q in E4. discriminate. }
  rewrite <- E. cbn [sl_blk1 sl_ts]. repeat split; congruence.
Qed.

Lemma chan_kept b k1 k2 : try_add_null b = Ok k1 -> rewind k1 = Ok k2 -> bk_chan k2 = bk_chan b.
Proof.
  intros A B. assert (bk_chan k1 = bk_chan b).
  { unfold try_add_null in A. destruct (bk_chan b) eqn:EC; try congruence; bi A; destruct (_ <=? _); try congruence; bi A; destruct x0; bi A; injection A as <-; reflexivity. }
  unfold rewind in B. bi B. injection B as <-. exact H.
Qed.

Definition keeps (k : nat) (s s1 : dls) : Prop := get_q k s1 = get_q k s /\ four s1 /\ ds_next s1 = [] /\ ds_cur s1 = ds_cur s.
Lemma traffic_keeps t s tch stch s1 m k : four s -> ds_next s = [] -> 1 <= t <= 4 -> 1 <= k <= 4 ->
  (t = k -> exists q, get_q k s = Ok q /\ Forall legal q) ->
  dl_build_traffic t s = Ok (tch, stch, s1, m) -> keeps k s s1 /\ (t = k -> stch = None).
Proof.
  intros F4 NX T K HL E. unfold dl_build_traffic in E. bi E. destruct x as [v c]. cbn [fst snd] in E. bi E. bi E.
  destruct (take_first is_steal x0) as [[e q']|] eqn:ET.
  - destruct e; try discriminate. bi E. injection E as ? ? ? ?; subst.
    destruct (Nat.eq_dec t k) as [->|N0].
    + exfalso. destruct (HL eq_refl) as (q & EQ & LG). change (get_q k s = Ok x0) in E2. rewrite E2 in EQ. injection EQ as <-.
      pose proof (take_first_filter is_steal x0) as Q. rewrite ET in Q. destruct Q as (_ & _ & Q & _). destruct (Q _ LG) as (Q1 & _). contradiction.
    + split; [|congruence]. split; [rewrite get_put_other by (auto || exact F4); reflexivity|]. split; [apply four_put; exact F4|]. split; [exact NX|reflexivity].
  - injection E as ? ? ? ?; subst. split; [|auto]. split; [reflexivity|]. split; [exact F4|]. split; [exact NX|reflexivity].
Qed.
Lemma build_keeps t f18 s o s1 m k : four s -> 1 <= t <= 4 -> 1 <= k <= 4 -> t <> k ->
  dl_build_signalling t f18 s = Ok (o, s1, m) -> keeps k s s1.
Proof.
  intros F4 T K N0 E. unfold dl_build_signalling in E. bi E. bi E. destruct x0 as [[[o' q] nx] m']. cbn [fst snd] in E. destruct nx as [|e nx].
  - injection E as ? ? ?; subst. split; [unfold get_q; cbn [set_next ds_q]; apply get_put_other; auto|]. split; [apply (four_put t s q F4)|]. split; reflexivity.
  - destruct q as [|? ?]; [|discriminate]. cbn [assert bind] in E. injection E as ? ? ?; subst.
    split; [unfold get_q; cbn [set_next ds_q]; apply get_put_other; auto|]. split; [apply (four_put t s _ F4)|]. split; reflexivity.
Qed.

Lemma content_other ts d h s o1 o2 s1 m k : four s -> ds_next s = [] -> vtime ts -> 1 <= k <= 4 -> for_ts k ts = false ->
  slot_content ts d h s = Ok (o1, o2, s1, m) -> keeps k s s1.
Proof.
  intros F4 NX V K N0 E. assert (T : 1 <= Z.to_nat (tm_t ts) <= 4) by (unfold vtime in V; lia).
  assert (TK : Z.to_nat (tm_t ts) <> k) by (unfold for_ts in N0; unfold vtime in V; lia).
  unfold slot_content in E. destruct (d && negb h).
  - bi E. destruct x as [[[tch stch] s2] m2]. cbn [fst snd] in E.
    destruct (traffic_keeps _ _ _ _ _ _ k F4 NX T K (fun Q => False_ind _ (TK Q)) E0) as (KS & _). destruct stch; injection E as ? ? ? ?; subst; assumption.
  - bi E. bi E. destruct x0 as [[o s2] m2]. cbn [fst snd] in E.
    assert (K1 : keeps k s x).
    { unfold dl_integrate in E0. bi E0. bi E0. injection E0 as <-. split; [apply get_put_other; auto|]. split; [now apply four_put|]. split; [exact NX|reflexivity]. }
    destruct K1 as (A & B & C & D). pose proof (build_keeps _ _ _ _ _ _ k B T K TK E1) as (A2 & B2 & C2 & D2).
    assert (KK : keeps k s s2) by (split; [congruence|]; split; [assumption|]; split; [assumption|]; congruence).
    destruct o; [injection E as ? ? ? ?; subst; assumption|]. destruct (h && d).
    + bi E. injection E as ? ? ? ?; subst; assumption.
    + injection E as ? ? ? ?; subst; assumption.
Qed.

(** What the slot did with the queue of timeslot [k]. *)
Inductive did (q : list dl_elem) (fresh : list wish) (m : list tx_reporter) (slot : dl_slot) (q2 : list dl_elem) : option (list item) -> Prop :=
| did_traffic : is_traffic slot = true -> q2 = q -> did q fresh m slot q2 None
| did_f18 q1 : is_traffic slot = false -> tm_f (sl_ts slot) = 18%Z -> m = [] -> q2 = q1 -> forallb busy q1 = true -> Forall legal q1 -> filter is_frag q1 = filter is_frag q ->
    Forall2 sim (filter is_resource q1) (fold_left (fun l n => attach n l) (flat_map notes_of q) fresh) ->
    bk_chan (sl_blk1 slot) = CBsch ->
    did q fresh m slot q2 None
| did_serve q1 is : is_traffic slot = false -> tm_f (sl_ts slot) <> 18%Z -> forallb busy q1 = true -> Forall legal q1 -> filter is_frag q1 = filter is_frag q ->
    Forall2 sim (filter is_resource q1) (fold_left (fun l n => attach n l) (flat_map notes_of q) fresh) ->
    all_frags q2 -> served_all (entries (line q1)) is (entries q2) m -> (q1 <> [] -> is <> []) ->
    (bk_chan (sl_blk1 slot) = CBsch /\ q1 = [] \/
     (bk_chan (sl_blk1 slot) = CSchF /\ length (window (bk_buf (sl_blk1 slot))) = 268 \/
      bk_chan (sl_blk1 slot) = CSchHd /\ q1 = [] /\ length (window (bk_buf (sl_blk1 slot))) = 124) /\ slot_items (window (bk_buf (sl_blk1 slot))) = Some is) ->
    (forall h, 32 <= h -> Forall (fun e => hw e = h) (entries (line q1)) ->
         match entries (line q1) with [] => True | e :: t => Forall (fun e => en_going e = false) t end ->
         in_turn (entries (line q1)) is (entries q2)) ->
    did q fresh m slot q2 (Some is).

Lemma tick_own s slot s' m k q fresh : finalize_ts s = Ok (slot, s', m) -> four s -> ds_next s = [] -> 1 <= k <= 4 ->
  for_ts k (sl_ts slot) = true -> get_q k s = Ok q -> Forall legal q -> Forall2 sim (filter is_resource q) fresh ->
  four s' /\ ds_next s' = [] /\ ds_cur s' = ds_cur s /\ sl_ts slot = add_timeslots (ds_cur s) 1 /\
  exists q2 o, get_q k s' = Ok q2 /\ Forall legal q2 /\ did q fresh m slot q2 o.
Proof.
  intros E F4 NX K FT EQ LG SM. destruct (finalize_inv _ _ _ _ E) as (dla & hang & o1 & o2 & s1 & b1 & k1 & u & EC & EB & E18 & EN & ER & ETS & ->). cbv zeta in *.
  rewrite ETS in FT. set (ts := add_timeslots (ds_cur s) 1) in *. set (s0 := set_pre (stamp ts (ds_pre s)) s) in *.
  assert (TK : Z.to_nat (tm_t ts) = k) by (unfold for_ts in FT; apply Z.eqb_eq in FT; lia).
  assert (F40 : four s0) by exact F4. assert (NX0 : ds_next s0 = []) by exact NX. assert (EQ0 : get_q k s0 = Ok q) by exact EQ.
  pose proof (chan_kept _ _ _ EN ER) as CH.
  unfold slot_content in EC. rewrite TK in EC.
  destruct ((dla && negb (tm_f ts =? 18)%Z) && negb hang) eqn:ED.
  - bi EC. destruct x as [[[tch stch] s2] m2]. cbn [fst snd] in EC.
    destruct (traffic_keeps k s0 _ _ _ _ k F40 NX0 K K (fun _ => ex_intro _ q (conj EQ0 LG)) E0) as ((A & B & C & D) & SN). rewrite (SN eq_refl) in EC.
    injection EC as <- <- <- <-. split; [exact B|]. split; [exact C|]. split; [exact D|]. split; [assumption|].
    exists q, None. split; [rewrite <- EQ0; exact A|]. split; [assumption|]. apply did_traffic; [|reflexivity].
    destruct EB as [EB|(EB & _)]; [|discriminate]. injection EB as <-. unfold is_traffic. rewrite CH. reflexivity.
  - destruct (signalling k s0 q fresh F40 K NX0 EQ0 LG SM) as (q1 & EI & B1 & L1 & G1 & S1 & E8 & b & w & is & q2 & m2 & E9 & EZ & AF & O & BK & LW & SV & PR & IT & TU).
    rewrite EI in EC. cbn [bind] in EC.
    assert (DEF : forall sx, generate_default ts sx = Ok b1 -> 
       bk_chan b1 = CBsch \/
       exists c n bb scr, (c = CSchF /\ n = 268 \/ c = CSchHd /\ n = 124) /\ mr_write mr_null_pdu (bb_new n) = Ok bb /\ b1 = mk_blk c bb scr).
    { intros sx Q. unfold generate_default in Q. destruct ((1 <=? tm_f ts)%Z && (tm_f ts <=? 17)%Z && (tm_t ts =? 1)%Z).
      - right. destruct (tm_f ts mod 2 =? 0)%Z; bi Q; injection Q as <-; [exists CSchHd, 124, x, (ds_scr sx)|exists CSchF, 268, x, (ds_scr sx)]; auto.
      - destruct (_ || _)%bool; [|discriminate]. bi Q. bi Q. injection Q as <-. left. reflexivity. }
    destruct (Z.eqb_spec (tm_f ts) 18) as [F18|F18].
    + rewrite E8 in EC. cbn [bind] in EC. replace (hang && (dla && negb true)) with false in EC by (destruct hang, dla; reflexivity).
      injection EC as <- <- <- <-.
      split; [apply four_put, four_put, F4|]. split; [reflexivity|]. split; [reflexivity|]. split; [assumption|].
      assert (CB : bk_chan b1 = CBsch).
      { destruct EB as [EB|(_ & EB)]; [discriminate|]. unfold generate_default in EB. rewrite F18 in EB.
        change ((1 <=? 18)%Z && (18 <=? 17)%Z) with false in EB. cbn [andb orb] in EB. change (18 =? 18)%Z with true in EB. bi EB. bi EB. injection EB as <-. reflexivity. }
      exists q1, None. split; [apply get_put; [now apply four_put|assumption]|]. split; [assumption|].
      apply did_f18 with q1; auto; [unfold is_traffic; rewrite CH, CB; reflexivity|rewrite ETS; exact F18|congruence].
    + rewrite E9 in EC. cbn [bind] in EC.
      assert (X : s1 = set_next [] (put_q k q2 (put_q k q1 s0)) /\ m = m2 /\ o2 = None /\
        (exists scr, o1 = match q1 with [] => None | _ => Some (mk_blk CSchF b scr) end /\ q1 <> [] \/
         q1 = [] /\ (o1 = None \/ exists bb, mr_write mr_null_pdu (bb_new SCH_F_CAP) = Ok bb /\ o1 = Some (mk_blk CSchF bb scr)))).
      { destruct q1 as [|e1 q1].
        - destruct (hang && (dla && negb false)).
          + bi EC. injection EC as <- <- <- <-. repeat (split; [reflexivity|]). eexists. right. split; [reflexivity|]. right. eexists. split; [exact E0|reflexivity].
          + injection EC as <- <- <- <-. repeat (split; [reflexivity|]). exists 0%N. auto.
        - injection EC as <- <- <- <-. repeat (split; [reflexivity|]). eexists. left. split; [reflexivity|discriminate]. }
      destruct X as (-> & -> & -> & scr & X).
      split; [apply four_put, four_put, F4|]. split; [reflexivity|]. split; [reflexivity|]. split; [assumption|].
      exists q2, (Some is). split; [apply get_put; [now apply four_put|assumption]|].
      split. { revert AF. apply Forall_impl. intros e (f & -> & Q). exact Q. }
      assert (Q1E : q1 = [] -> is = []).
      { intros ->. cbn in SV. inversion SV; reflexivity. }
      apply did_serve with q1; auto; [|rewrite ETS; exact F18|].
      * unfold is_traffic. rewrite CH. destruct X as [(X & N0)|(-> & [X|(bb & _ & X)])].
        -- destruct q1; [congruence|]. destruct EB as [EB|(EB & _)]; [|congruence]. rewrite X in EB. injection EB as <-. reflexivity.
        -- destruct EB as [EB|(_ & EB)]; [congruence|]. destruct (DEF _ EB) as [Q|(c & n & bb & scr' & [(-> & _)|(-> & _)] & _ & ->)]; [rewrite Q; reflexivity|reflexivity|reflexivity].
        -- destruct EB as [EB|(EB & _)]; [|congruence]. rewrite X in EB. injection EB as <-. reflexivity.
      * destruct X as [(X & N0)|(-> & [X|(bb & X0 & X)])].
        -- destruct q1 as [|e1 q1]; [congruence|]. destruct EB as [EB|(EB & _)]; [|congruence]. rewrite X in EB. injection EB as <-.
           right. destruct (finish_block CSchF b w scr k1 _ 268 (or_introl eq_refl) O LW EN ER) as (A & B & tail & D & TT).
           split; [left; auto|]. unfold slot_items. rewrite B. rewrite D in *. destruct (IT tail B) as (j & IT2). rewrite IT2, TT. cbn [option_map]. now rewrite app_nil_r.
        -- destruct EB as [EB|(_ & EB)]; [congruence|]. destruct (DEF _ EB) as [Q|(c & n & bb & scr' & [(-> & ->)|(-> & ->)] & QW & ->)].
           ++ left. split; [congruence|reflexivity].
           ++ right. destruct (empty_block CSchF bb scr' k1 _ 268 (or_introl eq_refl) ltac:(lia) QW EN ER) as (A & B & C). rewrite (Q1E eq_refl). auto.
           ++ right. destruct (empty_block CSchHd bb scr' k1 _ 124 (or_intror eq_refl) ltac:(lia) QW EN ER) as (A & B & C). rewrite (Q1E eq_refl). auto.
        -- destruct EB as [EB|(EB & _)]; [|congruence]. rewrite X in EB. injection EB as <-. right.
           destruct (empty_block CSchF bb scr k1 _ 268 (or_introl eq_refl) ltac:(lia) X0 EN ER) as (A & B & C). rewrite (Q1E eq_refl). auto.
Qed.
Lemma tick_other s slot s' m k : finalize_ts s = Ok (slot, s', m) -> four s -> ds_next s = [] -> 1 <= k <= 4 ->
  for_ts k (sl_ts slot) = false -> keeps k s s' /\ sl_ts slot = add_timeslots (ds_cur s) 1.
Proof.
  intros E F4 NX K FT. destruct (finalize_inv _ _ _ _ E) as (dla & hang & o1 & o2 & s1 & b1 & k1 & u & EC & EB & E18 & EN & ER & ETS & ->). cbv zeta in *.
  rewrite ETS in FT. split; [|assumption].
  destruct (content_other _ _ _ (set_pre (stamp (add_timeslots (ds_cur s) 1) (ds_pre s)) s) _ _ _ _ k F4 NX (add_valid _ _) K FT EC) as (A & B & C & D). split; [exact A|]. split; [exact B|]. split; [exact C|exact D].
Qed.
