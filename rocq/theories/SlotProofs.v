(** Proofs about the slots the scheduler sends. *)
From Coq Require Import Arith.
From Verif Require Import Base BitsLib AMap BitBuffer BitBufferProofs BitBufferOps Codec CodecProofs Layout LayoutProofs TypedFields MacFields MacPdus MacBroadcast MleBroadcast MacSpec
  MacBroadcastProofs MacFacts LlcBits TdmaTime TdmaTimeProofs Freqs TxReceipt UmacCircuits UmacCircuitsProofs DlSched DlSlot DlFinal StealProofs StealRun UmacPrecomps UmacBs SlotSpec SlotTame.
From Verif Require Import UmacSched.
From Verif Require Scrambler CallControl UlSched.
Open Scope nat_scope.

(** * The two MLE broadcasts *)
Definition msync_layout (p : mle_sync) : layout := [(ms_mcc p, 10); (ms_mnc p, 14); (ms_ncb p, 2); (ms_load p, 2); fl (ms_late p)].
Lemma msync_carries p : fits (msync_layout p) = true -> carries (msync_write p) msync_read p (msync_layout p).
Proof. intros F. apply carries_intro; [exact F| |]; unfold msync_write, msync_read, msync_layout; [wl|]. rl. now destruct p. Qed.
Definition bss_layout (p : bs_services) : layout :=
  [fl (bs_reg p); fl (bs_dereg p); fl (bs_prio p); fl (bs_nomin p); fl (bs_migr p); fl (bs_sws p); fl (bs_voice p); fl (bs_cmd p); (0%N, 1); fl (bs_sndcp p); fl (bs_aie p); fl (bs_al p)].
Lemma bss_WL p : WL (bss_write p) (bss_layout p).
Proof. unfold bss_write, bss_layout. wl. Qed.
Lemma bss_RL p : RL bss_read (bss_layout p) p.
Proof. unfold bss_read, bss_layout. rl. now destruct p. Qed.
Definition msi_layout (p : mle_sysinfo) : layout := [(mi_la p, 14); (mi_class p, 16)] ++ bss_layout (mi_bss p).
Lemma msi_carries p : fits (msi_layout p) = true -> carries (msi_write p) msi_read p (msi_layout p).
Proof.
  intros F. apply carries_intro; [exact F| |]; unfold msi_write, msi_read, msi_layout; cbn [app].
  - wl. rewrite <- (app_nil_r (bss_layout _)). apply WL_sub; [apply bss_WL|wl].
  - rl. rewrite <- (app_nil_r (bss_layout _)). eapply RL_sub; [apply bss_RL|rl]. now destruct p.
Qed.
Lemma msync_width p : width (msync_layout p) = 29. Proof. reflexivity. Qed.
Lemma msi_width p : width (msi_layout p) = 42. Proof. reflexivity. Qed.
Lemma sync_width p : width (sync_layout p) = 31. Proof. reflexivity. Qed.

(** * Writing PDUs into a new block and reading them back *)
Lemma new_room n k : k <= n -> room (bb_new n) k.
Proof. intros H. right. cbn [bb_new bpos bend]. lia. Qed.
Lemma rewound n b l k ch scr : wrote (bb_new n) b l -> length l = n -> rewind (mk_blk ch b scr) = Ok k ->
  bk_chan k = ch /\ bk_scr k = scr /\ get_len (bk_buf k) = Ok n /\ wf (bk_buf k) /\ remaining (bk_buf k) = l ++ [] /\ window (bk_buf k) = remaining (bk_buf k).
Proof.
  intros O L E. destruct (new_wrote _ _ _ O ltac:(lia)) as (W & WR & LW & LR). unfold rewind in E. cbn [bk_buf bk_chan bk_scr] in E.
  destruct (seek0 b W) as (b2 & ES & W2 & V & R). rewrite ES in E. cbn [bind] in E. injection E as <-. cbn [bk_chan bk_scr bk_buf].
  split; [reflexivity|]. split; [reflexivity|]. split; [|split; [exact W2|split]].
  - rewrite <- LW, <- V. exact (win_len b2 W2).
  - rewrite R, window_split, WR by exact W. destruct (remaining b); [reflexivity|]. cbn [length] in LR. lia.
  - rewrite R. exact V.
Qed.
Lemma one_pdu {A} n (w : wr) (r : reader A) x l b k ch scr : writes w l -> reads r l x -> length l = n -> w (bb_new n) = Ok b -> rewind (mk_blk ch b scr) = Ok k ->
  bk_chan k = ch /\ bk_scr k = scr /\ get_len (bk_buf k) = Ok n /\ reads_all r (bk_buf k) x.
Proof.
  intros HW HR L E ER. destruct (HW (bb_new n) (wf_new n)) as (b' & E' & O); [apply new_room; lia|]. rewrite E in E'. injection E' as <-.
  destruct (rewound _ _ _ _ _ _ O L ER) as (A1 & A2 & A3 & A4 & A5 & _). split; [exact A1|]. split; [exact A2|]. split; [exact A3|]. eexists. exact (HR _ _ A4 A5).
Qed.
Lemma two_pdus {A B} n (w1 w2 : wr) (r1 : reader A) (r2 : reader B) x y l1 l2 b1 b2 k ch scr :
  writes w1 l1 -> reads r1 l1 x -> writes w2 l2 -> reads r2 l2 y -> length l1 + length l2 = n ->
  w1 (bb_new n) = Ok b1 -> w2 b1 = Ok b2 -> rewind (mk_blk ch b2 scr) = Ok k ->
  bk_chan k = ch /\ bk_scr k = scr /\ get_len (bk_buf k) = Ok n /\ reads_all (then_read r1 r2) (bk_buf k) (x, y) /\ window (bk_buf k) = l1 ++ l2.
Proof.
  intros W1 R1 W2 R2 L E1 E2 ER. destruct (W1 (bb_new n) (wf_new n)) as (b' & E' & O1); [apply new_room; lia|]. rewrite E1 in E'. injection E' as <-.
  assert (RM : room b1 (length l2)) by (apply (room_after _ _ _ _ O1); apply new_room; lia).
  destruct (W2 b1 (proj1 O1) RM) as (b' & E' & O2). rewrite E2 in E'. injection E' as <-.
  assert (L' : length (l1 ++ l2) = n) by (rewrite app_length; exact L).
  destruct (rewound _ _ _ _ _ _ (wrote_trans _ _ _ _ _ O1 O2) L' ER) as (A1 & A2 & A3 & A4 & A5 & A6). split; [exact A1|]. split; [exact A2|]. split; [exact A3|].
  assert (H : reads (then_read r1 r2) ((l1 ++ l2) ++ []) (x, y)).
  { unfold then_read. rewrite app_nil_r. apply (reads_bind _ _ l1 l2 x); [exact R1|]. rewrite <- (app_nil_r l2). apply (reads_bind _ _ l2 [] y); [exact R2|apply reads_ret]. }
  split; [|rewrite A6, A5; apply app_nil_r]. eexists. eapply H; [exact A4|]. rewrite app_nil_r. exact A5.
Qed.

(** * What the scheduler holds *)
Definition code_of (c : cell_cfg) : N := Scrambler.scramb_get_init (cf_mcc c) (cf_mnc c) (cf_colour c).
Definition pre_says (c : cell_cfg) (off : N) (connected : bool) (t : tdma_time) : precomps :=
  let si o a e := mk_si (cf_carrier c) (cf_band c) off (cf_duplex c) (cf_reverse c) 0 5 3 7 3 None (Some (Z.to_N (tm_h t))) o None a e in
  mk_pre (si 2%N (Some access_says) None) (si 3%N None (Some services_say)) (msysinfo_says c connected)
    (mk_sync (cf_sys c) (cf_colour c) t (cf_sharing c) (cf_tsres c) (cf_dtx c) (cf_f18ext c)) (msync_says c).
Definition mark_fine (o : option N) : Prop := match o with Some u => (4 <= u <= 63)%N | None => True end.
Definition holds (view : nat -> ts_view) (dl ul : list (option N)) (hang : list bool) : Prop :=
  length dl = 4 /\ length ul = 4 /\ length hang = 4 /\
  forall ts, 1 <= ts <= 4 -> nth (ts - 1) dl None = vw_dl (view ts) /\ nth (ts - 1) ul None = vw_ul (view ts) /\ nth (ts - 1) hang false = vw_hang (view ts) /\
    mark_fine (vw_dl (view ts)) /\ mark_fine (vw_ul (view ts)).
Definition shows (c : cell_cfg) (connected : bool) (view : nat -> ts_view) (s : dls) : Prop :=
  ds_scr s = code_of c /\ holds view (uc_dl (ds_circ s)) (uc_ul (ds_circ s)) (ds_hang s) /\
  exists off t, offset_id c = Some off /\ ds_pre s = pre_says c off connected t.
(** Operations that leave all this alone. *)
Definition face (s s1 : dls) : Prop :=
  ds_scr s1 = ds_scr s /\ ds_pre s1 = ds_pre s /\ uc_dl (ds_circ s1) = uc_dl (ds_circ s) /\ uc_ul (ds_circ s1) = uc_ul (ds_circ s) /\ ds_hang s1 = ds_hang s.
Lemma face_refl s : face s s.
Proof. unfold face. auto. Qed.
Lemma face_trans a b d : face a b -> face b d -> face a d.
Proof. unfold face. intuition congruence. Qed.
Lemma face_put ts q s : face s (put_q ts q s).
Proof. unfold face, put_q, set_q. cbn. auto. Qed.
Lemma face_next l s : face s (set_next l s).
Proof. unfold face, set_next. cbn. auto. Qed.
Lemma face_shows c cn v s s1 : face s s1 -> shows c cn v s -> shows c cn v s1.
Proof. intros (A & B & C & D & E) (F & G & H). unfold shows. rewrite A, B, C, D, E. auto. Qed.
Lemma face_take ts (m m1 : ucm N (list N)) o : ucm_take ts m = Ok (o, m1) -> uc_dl m1 = uc_dl m /\ uc_ul m1 = uc_ul m.
Proof.
  unfold ucm_take. intros E. bi E. destruct x; [|injection E as _ <-; auto]. bi E. destruct x; injection E as _ <-; auto.
Qed.
Lemma content_face ts dla hang s o1 o2 s1 m : slot_content ts dla hang s = Ok (o1, o2, s1, m) -> face s s1.
Proof.
  intros E. unfold slot_content in E. destruct (dla && negb hang).
  - bi E. destruct x as [[[tch stch] s2] m2]. injection E as E. assert (s1 = s2) as -> by (destruct stch; congruence). clear E.
    unfold dl_build_traffic in E0. bi E0. destruct x as [v c]. destruct (face_take _ _ _ _ E) as (F1 & F2).
    assert (FC : face s (set_circ c s)) by (unfold face, set_circ; cbn; auto).
    bi E0. bi E0. destruct (take_first is_steal x0) as [[[] q']|]; try discriminate E0.
    + bi E0. injection E0 as _ _ <- _. apply face_trans with (set_circ c s); [exact FC|apply face_put].
    + injection E0 as _ _ <- _. exact FC.
  - bi E. bi E. destruct x0 as [[o s2] m2]. assert (s1 = s2) as ->.
    { destruct o; [congruence|]. destruct (hang && dla); [bi E; congruence|congruence]. }
    clear E. apply face_trans with x.
    + unfold dl_integrate in E0. bi E0. bi E0. injection E0 as <-. apply face_put.
    + unfold dl_build_signalling in E1. bi E1. bi E1. destruct x1 as [[[o' q] next] m']. destruct next.
      * injection E1 as _ <- _. apply face_trans with (put_q (Z.to_nat (tm_t ts)) q x); [apply face_put|apply face_next].
      * bi E1. injection E1 as _ <- _. apply face_trans with (put_q (Z.to_nat (tm_t ts)) (d :: next) x); [apply face_put|apply face_next].
Qed.

(** * The access assignment *)
Lemma active_view c cn v s d t : shows c cn v s -> 1 <= t <= 4 ->
  (d = DirDl -> circuit_is_active d t s = Ok (match vw_dl (v t) with Some _ => true | None => false end)) /\
  (d = DirUl -> circuit_is_active d t s = Ok (match vw_ul (v t) with Some _ => true | None => false end)).
Proof.
  intros (_ & (A & B & C & H) & _) T. destruct (H t T) as (H1 & H2 & _). unfold circuit_is_active, ucm_is_active.
  split; intros ->; rewrite (ts_get_ok _ _ None) by assumption; cbn [bind]; rewrite ?H1, ?H2; reflexivity.
Qed.
Lemma aach c cn v s ts k b : shows c cn v s -> vtime ts -> generate_bbk ts s = Ok b -> rewind b = Ok k ->
  bk_chan k = CAach /\ bk_scr k = code_of c /\ get_len (bk_buf k) = Ok 14 /\
  (if (tm_f ts =? 18)%Z then reads_all a18_read (bk_buf k) aach18_says else reads_all aa_read (bk_buf k) (aach_says ts (v (Z.to_nat (tm_t ts))))) /\
  (tm_f ts <> 18%Z -> tm_t ts = 1%Z -> vw_dl (v 1) = None /\ vw_ul (v 1) = None).
Proof.
  intros (SC & (A & B & C & H) & _) V E R. destruct V as (V1 & _). set (t := Z.to_nat (tm_t ts)) in *. assert (T : 1 <= t <= 4) by (subst t; lia).
  destruct (H t T) as (H1 & H2 & H3 & M1 & M2). unfold generate_bbk in E. fold t in E. destruct (tm_f ts =? 18)%Z eqn:F18.
  - cbn [bind UlSched.isnone negb andb assert] in E. bi E. injection E as <-. rewrite SC in R.
    pose proof (a18_carries aach18_says eq_refl) as (CW & CR).
    destruct (one_pdu 14 _ _ _ _ _ _ _ _ CW CR (proj2 aa_widths aach18_says eq_refl) E0 R) as (X1 & X2 & X3 & X4). do 4 (split; [assumption|]). lia.
  - unfold ucm_get_usage in E. rewrite !(ts_get_ok _ _ None) in E by assumption. cbn [bind] in E. rewrite H1, H2 in E.
    assert (ID : forall o : option N, option_map (fun u => u) o = o) by (intros []; reflexivity). rewrite !ID in E. cbn [negb] in E.
    bi E. injection E as <-. rewrite SC in R. bi E0.
    assert (P : x0 = aach_says ts (v t) /\ (tm_t ts = 1%Z -> vw_dl (v 1) = None /\ vw_ul (v 1) = None)).
    { unfold aach_says. destruct (Nat.eqb_spec t 1) as [T1|T1].
      - assert (TZ : (tm_t ts =? 1)%Z = true) by (subst t; lia). rewrite TZ. bi E. bi E. injection E as <-. split; [reflexivity|]. intros _. rewrite <- T1.
        destruct (vw_dl (v t)); [discriminate E1|]. destruct (vw_ul (v t)); [discriminate E2|]. auto.
      - assert (TZ : (tm_t ts =? 1)%Z = false) by (subst t; lia). rewrite TZ. assert (TR : (2 <=? t) && (t <=? 4) = true) by lia. rewrite TR in E.
        rewrite (ts_get_ok _ _ false) in E by assumption. cbn [bind] in E. rewrite H3 in E. injection E as <-. split; [|lia].
        unfold busy_ts. destruct (vw_hang (v t)), (vw_dl (v t)), (vw_ul (v t)); reflexivity. }
    destruct P as (-> & PN).
    assert (AV : aa_valid (aach_says ts (v t)) = true).
    { unfold aach_says. destruct (tm_t ts =? 1)%Z; [reflexivity|]. destruct (vw_hang (v t) && busy_ts (v t)); [reflexivity|].
      unfold mark_fine in M1, M2. destruct (vw_dl (v t)) as [a|], (vw_ul (v t)) as [b|]; unfold aa_valid, aa_layout, fits, um_dl_valid, um_ul_valid; cbn; try reflexivity;
        rewrite !Bool.andb_true_iff; repeat split; try reflexivity; lia. }
    pose proof (aa_carries _ AV) as (CW & CR).
    destruct (one_pdu 14 _ _ _ _ _ _ _ _ CW CR (proj1 aa_widths _ AV) E0 R) as (X1 & X2 & X3 & X4). do 4 (split; [assumption|]). intros _. exact PN.
Qed.

(** * The blocks *)
Lemma kept_block c b scr k1 k2 : match c with CSchF | CSchHd => False | _ => True end -> try_add_null (mk_blk c b scr) = Ok k1 -> rewind k1 = Ok k2 ->
  k1 = mk_blk c b scr /\ bk_chan k2 = c /\ bk_scr k2 = scr /\ get_len (bk_buf k2) = get_len b.
Proof.
  intros H E R. assert (k1 = mk_blk c b scr) as -> by (unfold try_add_null in E; cbn [bk_chan] in E; destruct c; try contradiction; congruence).
  split; [reflexivity|]. unfold rewind in R. cbn [bk_chan bk_scr bk_buf] in R. bi R. injection R as <-. unfold seek in E0. bi E0. injection E0 as <-. cbn [bk_chan bk_scr bk_buf]. auto.
Qed.
Definition pending (t : nat) (s : dls) : bool := match nth_error (ds_q s) (t - 1) with Some q => existsb is_steal q | None => false end.
Lemma take_steal q : match take_first is_steal q with Some (e, _) => existsb is_steal q = true | None => existsb is_steal q = false end.
Proof.
  induction q as [|e q IH]; [reflexivity|]. cbn [take_first existsb]. destruct (is_steal e); [reflexivity|]. cbn [orb]. destruct (take_first is_steal q) as [[x q']|]; exact IH.
Qed.
Lemma content_traffic ts s o1 o2 s1 m : vtime ts -> slot_content ts true false s = Ok (o1, o2, s1, m) -> exists tch, get_len tch = Ok 274 /\
  if pending (Z.to_nat (tm_t ts)) s then exists b, o1 = Some (mk_blk CStch b (ds_scr s)) /\ o2 = Some (mk_blk CTchS tch (ds_scr s))
  else o1 = Some (mk_blk CTchS tch (ds_scr s)) /\ o2 = None.
Proof.
  intros (V & _) E. pose proof (content_face _ _ _ _ _ _ _ _ E) as (SC & _). unfold slot_content in E. cbn [andb negb] in E. bi E. destruct x as [[[tch stch] s2] m2]. unfold dl_build_traffic in E0.
  bi E0. destruct x as [v c]. bi E0. bi E0.
  assert (L : get_len x = Ok 274).
  { destruct v as [bl|]; [|injection E2 as <-; reflexivity]. unfold set_raw_end in E2. bi E2. bi E2. bi E2. injection E2 as <-. cbn [get_len set_end bend bstart bb_from_vec]. reflexivity. }
  exists x. split; [exact L|].
  assert (PD : pending (Z.to_nat (tm_t ts)) s = existsb is_steal x0).
  { unfold get_q, ts_get in E3. cbn [ds_q set_circ] in E3. unfold pending. destruct (Z.to_nat (tm_t ts)) as [|i] eqn:T; [lia|]. replace (Datatypes.S i - 1) with i by lia.
    destruct (nth_error (ds_q s) i); [|discriminate E3]. injection E3 as ->. reflexivity. }
  rewrite PD. pose proof (take_steal x0) as TS. destruct (take_first is_steal x0) as [[e q']|].
  - rewrite TS. destruct e; try discriminate E0. bi E0. injection E0 as <- <- <- _. injection E as <- <- <- _. eexists. split; reflexivity.
  - rewrite TS. injection E0 as <- <- <- _. injection E as <- <- <- _. split; reflexivity.
Qed.
Lemma content_signalling ts dla hang s o1 o2 s1 m : dla && negb hang = false -> slot_content ts dla hang s = Ok (o1, o2, s1, m) ->
  o2 = None /\ ((o1 = None /\ dla = false) \/ exists b, block268 b /\ o1 = Some (mk_blk CSchF b (ds_scr s))).
Proof.
  intros D E. pose proof (content_face _ _ _ _ _ _ _ _ E) as (SC & _). unfold slot_content in E. rewrite D in E. bi E. bi E. destruct x0 as [[o s2] m2].
  assert (B : forall b, o = Some b -> block268 b).
  { unfold dl_build_signalling in E1. bi E1. bi E1. destruct x1 as [[[o' q] next] m']. assert (o = o') as -> by (destruct next; [congruence|bi E1; congruence]).
    refine (build_block _ _ _ _ _ _ _ _ _ _ E3). intros a Ea. discriminate Ea. }
  destruct o as [b|].
  - injection E as <- <- <- _. rewrite SC. split; [reflexivity|]. right. exists b. auto.
  - destruct (hang && dla) eqn:HD; [|injection E as <- <- _ _; split; [reflexivity|]; left; split; [reflexivity|]; destruct hang, dla; cbn [andb negb] in D, HD; congruence].
    bi E. injection E as <- <- <- _. rewrite SC. split; [reflexivity|]. right. exists x0. split; [|reflexivity]. exact (block_stays _ _ (mr_tame _ (bb_new SCH_F_CAP) _ eq_refl E2) block_new).
Qed.

(** * The broadcasts *)
Lemma sync_wire c t : sync_write (mk_sync (cf_sys c) (cf_colour c) t (cf_sharing c) (cf_tsres c) (cf_dtx c) (cf_f18ext c)) = sync_write (sync_says c t).
Proof. reflexivity. Qed.
Lemma sync_good c t : cell_ok c = true -> vtime t -> sync_valid (sync_says c t) = true.
Proof.
  intros H V. unfold cell_ok in H. rewrite !Bool.andb_true_iff in H. pose proof V as V0. unfold vtime in V. unfold sync_valid, sync_layout, sync_says, is_valid, fits, forallb. cbn [sy_sys sy_colour sy_time sy_sharing sy_tsres sy_dtx sy_f18ext tm_t tm_f tm_m tm_h fst snd].
  rewrite !Bool.andb_true_iff. destruct (cf_dtx c), (cf_f18ext c); cbn [fl fst snd N.b2n]; repeat split; try reflexivity; cbn; lia.
Qed.
Lemma msync_good c : cell_ok c = true -> fits (msync_layout (msync_says c)) = true.
Proof.
  intros H. unfold cell_ok in H. rewrite !Bool.andb_true_iff in H. unfold msync_layout, msync_says, fits, forallb. cbn [ms_mcc ms_mnc ms_ncb ms_load ms_late fst snd].
  rewrite !Bool.andb_true_iff. destruct (cf_late c); cbn [fl fst snd N.b2n]; repeat split; try reflexivity; cbn; lia.
Qed.
Lemma offset_small c off : offset_id c = Some off -> (off < 4)%N.
Proof. unfold offset_id. repeat (destruct (_ =? _)%Z; [intros E; injection E as <-; lia|]). discriminate. Qed.
Lemma si_good c off t : cell_ok c = true -> offset_id c = Some off -> vtime t -> si_valid (sysinfo_says c off t) = true.
Proof.
  intros H O V. apply offset_small in O. unfold cell_ok in H. rewrite !Bool.andb_true_iff in H. unfold vtime in V.
  assert (HH : (Z.to_N (tm_h t) < 65536)%N) by lia.
  unfold si_valid, sysinfo_says, si_layout. cbn [si_carrier si_band si_offset si_duplex si_reverse si_csch si_txpwr si_rxlev si_accpar si_dltimeout si_cck si_hyper si_opt si_tcf si_aca si_ext].
  assert (FT : forall L, fits L = true -> fits ([(2%N, 2); (0%N, 2); (cf_carrier c, 12); (cf_band c, 4); (off, 2); (cf_duplex c, 3); fl (cf_reverse c); (0%N, 2); (5%N, 3); (3%N, 4); (7%N, 4); (3%N, 4)] ++ [(0%N, 1); (Z.to_N (tm_h t), 16)] ++ L) = true).
  { intros L FL. unfold fits in *. rewrite !forallb_app, FL. cbn [forallb fst snd fl]. rewrite !Bool.andb_true_iff.
    destruct (cf_reverse c); cbn [N.b2n]; repeat split; try reflexivity; cbn; lia. }
  destruct (Z.odd (tm_t t)); rewrite FT by reflexivity; reflexivity.
Qed.
Lemma msi_good c cn : cell_ok c = true -> fits (msi_layout (msysinfo_says c cn)) = true.
Proof.
  intros H. unfold cell_ok in H. rewrite !Bool.andb_true_iff in H. unfold msi_layout, msysinfo_says. cbn [mi_la mi_class mi_bss].
  assert (FB : forall b, fits (bss_layout b) = true) by (intros [[] [] [] [] [] [] [] [] [] [] []]; reflexivity).
  unfold fits in *. rewrite forallb_app, FB. cbn [forallb fst snd]. rewrite !Bool.andb_true_iff. repeat split; try reflexivity; cbn; lia.
Qed.
Lemma bsch c off cn t b b1 k1 k2 : cell_ok c = true -> vtime t -> sync_write (pc_sync (pre_says c off cn t)) (bb_new 60) = Ok b -> msync_write (pc_msync (pre_says c off cn t)) b = Ok b1 ->
  try_add_null (mk_blk CBsch b1 Scrambler.SCRAMB_INIT) = Ok k1 -> rewind k1 = Ok k2 ->
  bk_chan k2 = CBsch /\ bk_scr k2 = Scrambler.SCRAMB_INIT /\ get_len (bk_buf k2) = Ok 60 /\ reads_all (then_read sync_read msync_read) (bk_buf k2) (sync_says c t, msync_says c).
Proof.
  intros H V E1 E2 E3 E4. destruct (kept_block CBsch _ _ _ _ Logic.I E3 E4) as (-> & _).
  destruct (sync_carries _ (sync_good c t H V)) as (A1 & A2). destruct (msync_carries _ (msync_good c H)) as (B1 & B2).
  cbn [pre_says pc_sync pc_msync] in E1, E2. rewrite sync_wire in E1.
  destruct (two_pdus 60 _ _ _ _ _ _ _ _ _ _ _ _ _ A1 A2 B1 B2 ltac:(rewrite !enc_length; reflexivity) E1 E2 E4) as (C1 & C2 & C3 & C4 & _). now repeat split.
Qed.
Lemma bnch c off cn t s b k1 k2 : cell_ok c = true -> offset_id c = Some off -> vtime t -> ds_scr s = code_of c -> ds_pre s = pre_says c off cn t -> sysinfo_blk t s = Ok b ->
  try_add_null b = Ok k1 -> rewind k1 = Ok k2 ->
  bk_chan k2 = CBnch /\ bk_scr k2 = code_of c /\ get_len (bk_buf k2) = Ok 124 /\ reads_all (then_read si_read msi_read) (bk_buf k2) (sysinfo_says c off t, msysinfo_says c cn) /\ exists rest, window (bk_buf k2) = enc (si_layout (sysinfo_says c off t)) ++ rest.
Proof.
  intros H O V SC PR E E3 E4. unfold sysinfo_blk in E. rewrite PR, SC in E. bi E. bi E. injection E as <-. destruct (kept_block CBnch _ _ _ _ Logic.I E3 E4) as (-> & _).
  destruct (si_all _ (si_good c off t H O V)) as ((A1 & A2) & AL). destruct (msi_carries _ (msi_good c cn H)) as (B1 & B2).
  assert (ES : (if (tm_t t mod 2 =? 1)%Z then pc_si1 (pre_says c off cn t) else pc_si2 (pre_says c off cn t)) = sysinfo_says c off t).
  { rewrite Zmod_odd. unfold sysinfo_says. destruct (Z.odd (tm_t t)); reflexivity. }
  rewrite ES in E0. cbn [pre_says pc_msi] in E1.
  destruct (two_pdus 124 _ _ _ _ _ _ _ _ _ _ _ _ _ A1 A2 B1 B2 ltac:(rewrite AL, enc_length; reflexivity) E0 E1 E4) as (C1 & C2 & C3 & C4 & C5).
  split; [exact C1|]. split; [exact C2|]. split; [exact C3|]. split; [exact C4|]. eexists. exact C5.
Qed.
