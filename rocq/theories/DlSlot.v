(** The downlink scheduler: one slot as a whole. *)
From Coq Require Import Arith.
From Verif Require Import Base BitsLib BitBuffer BitBufferProofs BitBufferOps Codec CodecProofs MacFields MacPdus MacBroadcast Layout LayoutProofs
  MacSpec MacPdusProofs FillBits BsFrag FragSpec FillProofs FragProofs TxReceipt TdmaTime UmacCircuits UmacCircuitsProofs UlSched LlcBits DlSched DlSchedSpec DlChunk DlBuild DlNotes.
Open Scope nat_scope.

Lemma bind_inv {A B} (x : res A) (f : A -> res B) y : bind x f = Ok y -> exists a, x = Ok a /\ f a = Ok y.
Proof. destruct x; cbn; intros H; try discriminate. eauto. Qed.
Ltac bi H := let x := fresh "x" in let E := fresh "E" in apply bind_inv in H; destruct H as (x & E & H).

Definition four (s : dls) : Prop := length (ds_q s) = 4.
Lemma get_put k s q : four s -> 1 <= k <= 4 -> get_q k (put_q k q s) = Ok q.
Proof.
  intros F K. unfold get_q, put_q, set_q. cbn [ds_q]. rewrite (ts_get_ok _ _ []) by (assumption || (unfold ts_set; now rewrite upd_length)).
  rewrite nth_ts_set by assumption. now rewrite Nat.eqb_refl.
Qed.
Lemma get_put_other k k' s q : four s -> 1 <= k <= 4 -> 1 <= k' <= 4 -> k <> k' -> get_q k (put_q k' q s) = get_q k s.
Proof.
  intros F K K' N0. unfold get_q, put_q, set_q. cbn [ds_q]. rewrite !(ts_get_ok _ _ []) by (assumption || (unfold ts_set; now rewrite upd_length)).
  rewrite nth_ts_set by assumption. destruct (Nat.eqb_spec k k'); [congruence|reflexivity].
Qed.
Lemma four_put k s q : four s -> four (put_q k q s).
Proof. intros F. unfold four, put_q, set_q, ts_set. cbn [ds_q]. now rewrite upd_length. Qed.

Lemma legal_ok q : Forall legal q -> Forall elem_ok q.
Proof. apply Forall_impl. intros []; cbn; auto. Qed.
Lemma legal_split q : Forall legal q ->
  forallb busy (filter (fun e => negb (is_note e)) q) = true /\ Forall legal (filter (fun e => negb (is_note e)) q) /\
  forallb is_note (filter is_note q) = true /\ Forall legal (filter is_note q) /\ flat_map notes_of (filter is_note q) = flat_map notes_of q /\
  filter is_frag (filter (fun e => negb (is_note e)) q) = filter is_frag q /\ filter is_resource (filter (fun e => negb (is_note e)) q) = filter is_resource q.
Proof.
  induction 1 as [|e q L F IH]; [cbn; repeat split; constructor|]. destruct IH as (A & B & C & D & E & G & H).
  destruct e; try contradiction; cbn [filter is_note negb forallb busy is_frag is_resource orb andb flat_map notes_of app]; rewrite ?A, ?C, ?E, ?G, ?H; repeat split; auto.
Qed.

Lemma signalling k s q fresh : four s -> 1 <= k <= 4 -> ds_next s = [] -> get_q k s = Ok q -> Forall legal q -> Forall2 sim (filter is_resource q) fresh ->
  exists q1, dl_integrate k s = Ok (put_q k q1 s) /\ forallb busy q1 = true /\ Forall legal q1 /\ filter is_frag q1 = filter is_frag q /\
    Forall2 sim (filter is_resource q1) (fold_left (fun l n => attach n l) (flat_map notes_of q) fresh) /\
    dl_build_signalling k true (put_q k q1 s) = Ok (None, set_next [] (put_q k q1 (put_q k q1 s)), []) /\
    exists b w is q2 m,
      dl_build_signalling k false (put_q k q1 s) = Ok (match q1 with [] => None | _ => Some b end, set_next [] (put_q k q2 (put_q k q1 s)), m) /\
      (q1 = [] -> b = bb_new SCH_F_CAP) /\
      all_frags q2 /\ wrote (bb_new SCH_F_CAP) b w /\ blk_ok b /\ length w <= 268 /\
      served_all (entries (line q1)) is (entries q2) m /\ (q1 <> [] -> is <> []) /\
      (forall tail, length (w ++ tail) = 268 -> exists j, items true 268 (w ++ tail) = option_map (app is) (items true j tail)) /\
      (forall h, 32 <= h -> Forall (fun e => hw e = h) (entries (line q1)) ->
         match entries (line q1) with [] => True | e :: t => Forall (fun e => en_going e = false) t end ->
         in_turn (entries (line q1)) is (entries q2)).
Proof.
  intros F4 K NX EQ HL HS. destruct (legal_split q HL) as (A & B & C & D & E & G & H).
  destruct (integrate_all_spec (filter is_note q) (filter (fun e => negb (is_note e)) q) fresh A B C D) as (q1 & E1 & B1 & L1 & G1 & S1); [now rewrite H|].
  exists q1. split; [unfold dl_integrate; rewrite EQ; cbn [bind]; rewrite E1; reflexivity|].
  split; [assumption|]. split; [assumption|]. split; [congruence|]. split; [now rewrite <- E|].
  assert (EG : get_q k (put_q k q1 s) = Ok q1) by now apply get_put.
  assert (NX1 : ds_next (put_q k q1 s) = []) by exact NX.
  split.
  { unfold dl_build_signalling. rewrite EG. cbn [bind]. rewrite NX1. destruct q1 as [|e q1]; [reflexivity|]. cbn [length build_loop dl_take_item bind]. reflexivity. }
  destruct (build_spec (length q1) q1 [] None B1 (legal_ok _ L1) (le_n _) blk_new_ok) as (b & w & is & q2 & m & EB & EZ & AF & O & BK & LW & SV & PR & IT & _ & TU).
  assert (CAP : length (remaining (blk_of None)) = 268) by (unfold remaining; rewrite bits_rng_length; reflexivity). rewrite CAP in *.
  exists b, w, is, q2, m. split.
  { unfold dl_build_signalling. rewrite EG. cbn [bind]. rewrite NX1, EB. cbn [bind app].
    assert (ENONE : match q1 with [] => None | _ :: _ => Some b end = match q1 with [] => @None bitbuf | _ => Some b end) by reflexivity.
    destruct q2; reflexivity. }
  split; [exact EZ|]. split; [assumption|]. split; [exact O|]. split; [assumption|]. split; [assumption|]. split; [assumption|]. split; [auto|].
  split; [intros tail HT; apply IT; lia|].
  intros h H32 HW HG. apply (TU h H32 HW). destruct (entries (line q1)); [exact Logic.I|]. split; [lia|assumption].
Qed.

(** * The bits of the block *)
Lemma window_split b : wf b -> window b = written b ++ remaining b.
Proof.
  intros (A & B & _). unfold window, written, remaining. replace (bend b - bstart b) with ((bpos b - bstart b) + (bend b - bpos b)) by lia.
  rewrite bits_rng_app. f_equal. f_equal; lia.
Qed.
Lemma null_valid : mr_valid mr_null_pdu = true. Proof. reflexivity. Qed.
Lemma items_null j rest : items true j (enc (mr_layout mr_null_pdu) ++ rest) = Some [].
Proof.
  destruct j; [reflexivity|]. rewrite items_eq. destruct (_ <? 16); [reflexivity|].
  rewrite (parse_reads mr_read _ (mr_on_air mr_null_pdu)) by exact (proj2 (mr_carries _ null_valid)). reflexivity.
Qed.
Lemma null_write b b' : wf b -> mr_write mr_null_pdu b = Ok b' -> 16 <= length (remaining b) -> wrote b b' (enc (mr_layout mr_null_pdu)).
Proof.
  intros W E R. destruct (proj1 (mr_carries _ null_valid) b W) as (b2 & E2 & O); [apply room_fixed; [exact R|assumption]|]. congruence.
Qed.
Lemma upd_null : mr_update_len_and_fill_ind mr_null_pdu 0 = Ok (0, mr_null_pdu). Proof. reflexivity. Qed.
Lemma new_wrote n b w : wrote (bb_new n) b w -> length w <= n -> wf b /\ written b = w /\ length (window b) = n /\ length (remaining b) = n - length w.
Proof.
  intros O L. pose proof O as (W & S & A & P & _). pose proof (wf_new n) as W0.
  assert (LR : length (remaining (bb_new n)) = n) by (unfold remaining; rewrite bits_rng_length; cbn; lia).
  split; [assumption|]. assert (WR : written b = w) by (rewrite (wrote_written _ _ _ W0 O); reflexivity).
  split; [assumption|]. pose proof (wrote_rem_len _ _ _ W0 O ltac:(lia)) as R. rewrite LR in R.
  split; [|assumption]. rewrite window_split, app_length, WR, R by assumption. lia.
Qed.
(** After the null PDU and the rewinding, the bits are the pieces followed by nothing of interest. *)
Lemma finish_block c b w scr k1 k2 n : (c = CSchF \/ c = CSchHd) -> wrote (bb_new n) b w -> length w <= n ->
  try_add_null (mk_blk c b scr) = Ok k1 -> rewind k1 = Ok k2 ->
  bk_chan k2 = c /\ length (window (bk_buf k2)) = n /\ exists tail, window (bk_buf k2) = w ++ tail /\ forall j, items true j tail = Some [].
Proof.
  intros C O L E1 E2. destruct (new_wrote _ _ _ O L) as (W & WR & LW & LR). unfold try_add_null in E1. cbn [bk_chan bk_buf bk_scr] in E1.
  assert (RW : forall b', wf b' -> rewind (mk_blk c b' scr) = Ok k2 -> bk_chan k2 = c /\ window (bk_buf k2) = window b').
  { intros b' W' R. unfold rewind in R. cbn [bk_buf bk_chan bk_scr] in R. destruct (seek0 b' W') as (b2 & ES & _ & V & _). rewrite ES in R. cbn [bind] in R. injection R as <-. auto. }
  assert (E1' : (r <- get_len_remaining b ;; if NULL_PDU_LEN_BITS <=? r then ' (_, p) <- mr_update_len_and_fill_ind mr_null_pdu 0 ;; b <- mr_write p b ;; Ok (mk_blk c b scr) else Ok (mk_blk c b scr)) = Ok k1)
    by (destruct C as [-> | ->]; exact E1).
  clear E1. rewrite len_rem, upd_null in E1' by assumption. cbn [bind] in E1'. unfold NULL_PDU_LEN_BITS in E1'. destruct (Nat.leb_spec 16 (length (remaining b))) as [H|H].
  - bi E1'. injection E1' as <-. pose proof (null_write _ _ W E H) as O2. pose proof (wrote_trans _ _ _ _ _ O O2) as O3.
    destruct (new_wrote _ _ _ O3) as (W3 & WR3 & LW3 & _); [rewrite app_length, enc_length; change (width (mr_layout mr_null_pdu)) with 16; lia|].
    destruct (RW _ W3 E2) as (A & B). rewrite B. split; [assumption|]. split; [assumption|].
    exists (enc (mr_layout mr_null_pdu) ++ remaining x). rewrite window_split, WR3, <- app_assoc by assumption. split; [reflexivity|]. intros j. apply items_null.
  - injection E1' as <-. destruct (RW _ W E2) as (A & B). rewrite B. split; [assumption|]. split; [assumption|].
    exists (remaining b). rewrite window_split, WR by assumption. split; [reflexivity|]. intros j. apply items_short. lia.
Qed.
Lemma empty_block c b scr k1 k2 n : (c = CSchF \/ c = CSchHd) -> 16 <= n -> mr_write mr_null_pdu (bb_new n) = Ok b ->
  try_add_null (mk_blk c b scr) = Ok k1 -> rewind k1 = Ok k2 ->
  bk_chan k2 = c /\ length (window (bk_buf k2)) = n /\ slot_items (window (bk_buf k2)) = Some [].
Proof.
  intros C N0 E E1 E2. assert (LR : length (remaining (bb_new n)) = n) by (unfold remaining; rewrite bits_rng_length; cbn; lia).
  pose proof (null_write _ _ (wf_new n) E ltac:(lia)) as O.
  destruct (finish_block c b _ scr k1 k2 n C O) as (A & B & tail & D & _); [rewrite enc_length; exact N0|assumption|assumption|].
  split; [assumption|]. split; [assumption|]. unfold slot_items. rewrite D. apply items_null.
Qed.
