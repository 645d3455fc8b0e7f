(** Writing into a block of fixed size leaves a well-formed block of that size, whatever is written; and so every
    block the scheduler sends is well-formed and rewound. *)
From Coq Require Import Arith Lia.
From Verif Require Import Base BitBuffer BitBufferProofs BitBufferOps Codec TypedFields TdmaTime MacFields MacPdus FillBits TxReceipt BsFrag UmacCircuits UlSched UmacPrecomps MacBroadcast MleBroadcast VoicePack DlSched DlSlot DlFinal DlRun SlotTame StealSpec StealRun.
From Verif Require Import UmacBs UmacSched UmacCircuitsProofs.
From Verif Require SlotRun.
From Verif Require Import UlBlockPdu.
From Verif Require CallControl.
Open Scope nat_scope.

(** * Writers *)
Definition safe (w : wr) : Prop := forall b b', wf b -> autoexp b = false -> w b = Ok b' -> wf b' /\ stays b b'.
Lemma set_byte l i x l' : Forall isbyte l -> isbyte x -> byte_set l i x = Ok l' -> Forall isbyte l' /\ length l' = length l.
Proof.
  intros F B E. unfold byte_set in E. destruct (i <? length l); [|discriminate E]. injection E as <-. split; [now apply Forall_upd|apply upd_length].
Qed.
Lemma at_byte l i x : Forall isbyte l -> byte_at l i = Ok x -> isbyte x.
Proof.
  intros F E. unfold byte_at in E. destruct (nth_error l i) eqn:N; [|discriminate E]. injection E as <-. apply nth_error_In in N. rewrite Forall_forall in F. auto.
Qed.
Lemma full_bytes v k : forall l cur r l', Forall isbyte l -> wr_full l v k cur r = Ok l' -> Forall isbyte l' /\ length l' = length l.
Proof.
  induction k as [|k IH]; intros l cur r l' F E; cbn [wr_full] in E; [injection E as <-; auto|]. bi E.
  destruct (set_byte _ _ _ _ F (isbyte_to_u8 _) E0) as (F1 & L1). destruct (IH _ _ _ _ F1 E) as (F2 & L2). split; [exact F2|congruence].
Qed.
Lemma wf_written b l n : wf b -> Forall isbyte l -> length l = length (bytes b) -> bpos b + n <= bend b -> wf (set_pos (set_bytes b l) (bpos b + n)).
Proof. intros (A & B & C & D) F L N. unfold wf, cap, set_pos, set_bytes in *. cbn. rewrite L. repeat split; try lia; assumption. Qed.
Lemma safe_bits v n : safe (write_bits v n).
Proof.
  intros b b' W A E. pose proof (tame_bits _ _ _ _ A E) as S. split; [|exact S]. clear S. unfold write_bits in E. bi E. bi E. bi E.
  assert (L : x1 = b /\ bpos b + n <= bend b). { rewrite A in E2. destruct (Nat.ltb_spec (bend b) (bpos b + n)); [discriminate E2|]. split; [congruence|lia]. }
  destruct L as (-> & L). pose proof W as (_ & _ & _ & F). bi E. destruct x1 as [[l cur] rm].
  assert (F1 : Forall isbyte l /\ length l = length (bytes b)).
  { destruct (_ && _)%bool; [|injection E3 as <- _ _; auto]. bi E3. bi E3. injection E3 as <- _ _. exact (set_byte _ _ _ _ F (isbyte_wr_part _ _ _ _ (at_byte _ _ _ F E4)) E5). }
  destruct F1 as (F1 & L1). bi E. destruct (full_bytes _ _ _ _ _ _ F1 E4) as (F2 & L2). bi E. injection E as <-.
  assert (F3 : Forall isbyte x2 /\ length x2 = length x1).
  { match type of E5 with (if ?c then _ else _) = _ => destruct c end; [|injection E5 as <-; auto]. apply bind_inv in E5. destruct E5 as (y & EY & E5). exact (set_byte _ _ _ _ F2 (isbyte_wr_part _ _ _ _ (at_byte _ _ _ F2 EY)) E5). }
  destruct F3 as (F3 & L3). apply wf_written; auto. congruence.
Qed.
Lemma safe_bit v : safe (write_bit v).
Proof.
  intros b b' W A E. pose proof (tame_bit _ _ _ A E) as S. split; [|exact S]. clear S. unfold write_bit in E. bi E. bi E.
  assert (L : x0 = b /\ bpos b + 1 <= bend b). { rewrite A in E1. destruct (Nat.ltb_spec (bend b) (bpos b + 1)); [discriminate E1|]. split; [congruence|lia]. }
  destruct L as (-> & L). pose proof W as (_ & _ & _ & F). bi E. bi E. injection E as <-.
  assert (F3 : Forall isbyte x1 /\ length x1 = length (bytes b)).
  { refine (set_byte _ _ _ _ F _ E3). apply isbyte_intro. intros k Hk. rewrite N.lor_spec, N.land_spec, (isbyte_testbit _ k (at_byte _ _ _ F E2) Hk), tb_shl8. destruct (Nat.ltb_spec k 8); [lia|]. now rewrite Bool.andb_false_r. }
  destruct F3 as (F3 & L3). apply wf_written; auto.
Qed.
Lemma safe_then w1 w2 : safe w1 -> safe w2 -> safe (wthen w1 w2).
Proof.
  intros H1 H2 b b' W A E. unfold wthen in E. bi E. destruct (H1 _ _ W A E0) as (W1 & S1). assert (A1 : autoexp x = false) by (destruct S1 as (_ & _ & ->); exact A).
  destruct (H2 _ _ W1 A1 E) as (W2 & S2). split; [exact W2|exact (stays_trans _ _ _ S1 S2)].
Qed.
Lemma safe_ret : safe wret.
Proof. intros b b' W _ E. injection E as <-. split; [exact W|apply stays_refl]. Qed.
Lemma safe_panic : safe wpanic.
Proof. intros b b' _ _ E. discriminate E. Qed.
Lemma safe_assert c : safe (wassert c).
Proof. destruct c; [apply safe_ret|apply safe_panic]. Qed.
Lemma safe_unwrap {A} (x : option A) w : (forall v, safe (w v)) -> safe (w_unwrap x w).
Proof. intros H. destruct x; [apply H|apply safe_panic]. Qed.
Lemma safe_flag {A} (x : option A) w : (forall v, safe (w v)) -> safe (wopt_flag x w).
Proof. intros H. unfold wopt_flag. destruct x; [apply safe_then; [apply safe_bits|apply H]|apply safe_bits]. Qed.
Ltac sf1 := lazymatch goal with
  | |- safe (wthen _ _) => apply safe_then
  | |- safe wret => apply safe_ret
  | |- safe wpanic => apply safe_panic
  | |- safe (wassert _) => apply safe_assert
  | |- safe (w_unwrap _ _) => apply safe_unwrap; intros ?
  | |- safe (wopt_flag _ _) => apply safe_flag; intros ?
  | |- safe (wfield _ _) => apply safe_bits
  | |- safe (wflag _) => apply safe_bits
  | |- safe (match ?x with _ => _ end) => destruct x
  end.
Ltac sf := repeat sf1.
Lemma sg_safe g : safe (sg_write g).
Proof. unfold sg_write. sf. Qed.
Lemma ca_safe c : safe (ca_write c).
Proof. unfold ca_write. sf. Qed.
Lemma mr_safe p : safe (mr_write p).
Proof. unfold mr_write, mr_write_addr. cbv zeta. sf; first [apply sg_safe | apply ca_safe]. Qed.
Lemma mend_safe p : safe (mend_write p).
Proof. unfold mend_write. sf; first [apply sg_safe | apply ca_safe]. Qed.
Lemma mfrag_safe f : safe (mfrag_write f).
Proof. unfold mfrag_write. sf. Qed.
Lemma af_safe a : safe (w_af a).
Proof. unfold w_af. sf. Qed.
Lemma aa_safe p : safe (aa_write p).
Proof. unfold aa_write. sf; apply af_safe. Qed.
Lemma a18_safe p : safe (a18_write p).
Proof. unfold a18_write. cbv zeta. sf; apply af_safe. Qed.
Lemma sync_safe p : safe (sync_write p).
Proof. unfold sync_write. sf. Qed.
Lemma msync_safe p : safe (msync_write p).
Proof. unfold msync_write. sf. Qed.
Lemma flags_safe l : safe (wflags l).
Proof. induction l as [|f l IH]; cbn [wflags]; sf. exact IH. Qed.
Lemma si_safe p : safe (si_write p).
Proof. unfold si_write. sf; unfold tcf_write, aca_write, es_write; sf. apply flags_safe. Qed.
Lemma msi_safe p : safe (msi_write p).
Proof. unfold msi_write, bss_write. sf. Qed.
Lemma copy_safe fuel : forall n b src b' src', wf b -> autoexp b = false -> copy_bits_loop fuel n b src = Ok (b', src') -> wf b' /\ stays b b'.
Proof.
  induction fuel as [|f IH]; intros n b src b' src' W A E; cbn [copy_bits_loop] in E; destruct (n =? 0); try (injection E as <- _; split; [exact W|apply stays_refl]); [discriminate E|].
  bi E. bi E. bi E. destruct x1 as [ov s1]. bi E. bi E. destruct (safe_bits _ _ _ _ W A E4) as (W1 & S1). assert (A1 : autoexp x2 = false) by (destruct S1 as (_ & _ & ->); exact A).
  destruct (IH _ _ _ _ _ W1 A1 E) as (W2 & S2). split; [exact W2|exact (stays_trans _ _ _ S1 S2)].
Qed.
Lemma zeroes_safe n : safe (write_zeroes n).
Proof.
  unfold write_zeroes. assert (H : forall fuel n, safe (write_zeroes_loop fuel n)).
  { induction fuel as [|f IH]; intros k b b' W A E; cbn [write_zeroes_loop] in E; destruct (k =? 0); try (injection E as <-; split; [exact W|apply stays_refl]); [discriminate E|].
    bi E. destruct (safe_bits _ _ _ _ W A E0) as (W1 & S1). assert (A1 : autoexp x = false) by (destruct S1 as (_ & _ & ->); exact A).
    destruct (IH _ _ _ W1 A1 E) as (W2 & S2). split; [exact W2|exact (stays_trans _ _ _ S1 S2)]. }
  apply H.
Qed.
Lemma pad_safe n : safe (fg_pad n).
Proof.
  unfold fg_pad. destruct (0 <? n); [|exact safe_ret]. apply (safe_then (write_bit 1) (write_zeroes (n - 1))); [apply safe_bit|apply zeroes_safe].
Qed.
Lemma fill_safe n : safe (fill_write n).
Proof.
  destruct n as [n|]; unfold fill_write.
  - exact (pad_safe n).
  - intros b b' W A E. bi E. destruct (0 <? x); [|injection E as <-; split; [exact W|apply stays_refl]]. bi E. bi E. destruct (safe_bit _ _ _ W A E1) as (W1 & S1).
    assert (A1 : autoexp x0 = false) by (destruct S1 as (_ & _ & ->); exact A). destruct (zeroes_safe x1 _ _ W1 A1 E) as (W2 & S2). split; [exact W2|exact (stays_trans _ _ _ S1 S2)].
Qed.
Lemma three_safe (w1 w3 : wr) fuel n src src' b b1 b2 b' : safe w1 -> safe w3 -> wf b -> autoexp b = false -> w1 b = Ok b1 -> copy_bits_loop fuel n b1 src = Ok (b2, src') -> w3 b2 = Ok b' -> wf b' /\ stays b b'.
Proof.
  intros H1 H3 W A E1 E2 E3. destruct (H1 _ _ W A E1) as (W1 & S1). assert (A1 : autoexp b1 = false) by (destruct S1 as (_ & _ & ->); exact A).
  destruct (copy_safe _ _ _ _ _ _ W1 A1 E2) as (W2 & S2). assert (A2 : autoexp b2 = false) by (destruct S2 as (_ & _ & ->); exact A1).
  destruct (H3 _ _ W2 A2 E3) as (W3 & S3). split; [exact W3|]. exact (stays_trans _ _ _ S1 (stays_trans _ _ _ S2 S3)).
Qed.
Lemma resource_safe f b dn f' b' : wf b -> autoexp b = false -> fg_resource_chunk f b = Ok (dn, f', b') -> wf b' /\ stays b b'.
Proof.
  intros W A E. unfold fg_resource_chunk in E. bi E. bi E. bi E. bi E. bi E. bi E. bi E. cbv zeta in E.
  destruct (_ <=? _).
  - bi E. bi E. bi E. destruct x8 as [b1 s1]. bi E. injection E as _ _ <-. exact (three_safe _ _ _ _ _ _ _ _ _ _ (mr_safe _) (fill_safe _) W A E8 E9 E10).
  - destruct (_ || _); [injection E as _ _ <-; split; [exact W|apply stays_refl]|]. bi E. bi E. bi E. destruct x8 as [b1 s1]. bi E. injection E as _ _ <-.
    exact (three_safe _ _ _ _ _ _ _ _ _ _ (mr_safe _) (fill_safe _) W A E8 E9 E10).
Qed.
Lemma end_safe f b dn f' b' : wf b -> autoexp b = false -> fg_frag_or_end_chunk f b = Ok (dn, f', b') -> wf b' /\ stays b b'.
Proof.
  intros W A E. unfold fg_frag_or_end_chunk in E. bi E. bi E. bi E. cbv zeta in E. bi E. destruct (_ <=? _).
  - bi E. bi E. destruct x4 as [b1 s1]. bi E. injection E as _ _ <-. exact (three_safe _ _ _ _ _ _ _ _ _ _ (mend_safe _) (pad_safe _) W A E4 E5 E6).
  - destruct (_ <? _); [injection E as _ _ <-; split; [exact W|apply stays_refl]|]. bi E. bi E. destruct x4 as [b1 s1]. bi E. injection E as _ _ <-.
    exact (three_safe _ _ _ _ _ _ _ _ _ _ (mfrag_safe _) (pad_safe _) W A E4 E5 E6).
Qed.

(** * Blocks *)
(** A well-formed block of [n] bits that cannot grow. *)
Definition block (n : nat) (b : bitbuf) : Prop := wf b /\ autoexp b = false /\ get_len b = Ok n.
Lemma block_bb n : block n (bb_new n).
Proof. split; [apply wf_new|]. split; [reflexivity|]. unfold get_len, bb_new. cbn [bstart bend]. unfold sub_checked. cbn [Nat.ltb Nat.leb]. now rewrite Nat.sub_0_r. Qed.
Lemma block_to n b b' : wf b' /\ stays b b' -> block n b -> block n b'.
Proof. intros (W & S) (_ & A & L). split; [exact W|]. split; [destruct S as (_ & _ & ->); exact A|]. rewrite (stays_len _ _ S). exact L. Qed.
Lemma block_write (w : wr) n b b' : safe w -> block n b -> w b = Ok b' -> block n b'.
Proof. intros H B E. apply (block_to n b); [|exact B]. destruct B as (W & A & _). exact (H _ _ W A E). Qed.
Lemma put_chunk_wf f buf next b nx m : (forall a, buf = Some a -> block 268 a) -> put_chunk f buf next = Ok (b, nx, m) -> block 268 b.
Proof.
  intros H E. unfold put_chunk in E. bi E. destruct x as [[dn f1] b1]. assert (b = b1) as -> by (destruct dn; congruence). clear E.
  assert (B0 : block 268 (match buf with Some b => b | None => bb_new SCH_F_CAP end)) by (destruct buf; [now apply H|apply (block_bb 268)]).
  unfold fg_next_chunk in E0. bi E0. bi E0. bi E0. bi E0. bi E0. destruct x3 as [[dn2 f2] b2]. bi E0. injection E0 as _ _ <-. apply (block_to _ _ _) with (2 := B0). destruct B0 as (W & A & _).
  destruct (fg_hdr f); [exact (end_safe _ _ _ _ _ W A E4)|exact (resource_safe _ _ _ _ _ W A E4)].
Qed.
Lemma build_wf fuel f18 : forall q next buf o q' nx m, (forall a, buf = Some a -> block 268 a) -> build_loop fuel f18 q next buf = Ok (o, q', nx, m) -> forall b, o = Some b -> block 268 b.
Proof.
  induction fuel as [|n IH]; intros q next buf o q' nx m H E b Eb.
  { destruct q; cbn [build_loop] in E; [injection E as <- _ _ _; now apply H|discriminate E]. }
  destruct q as [|e0 q0]; cbn [build_loop] in E; [injection E as <- _ _ _; now apply H|].
  destruct (dl_take_item f18 (e0 :: q0)) as [[e q1]|]; [|injection E as <- _ _ _; now apply H].
  destruct e; try discriminate E; try exact (IH _ _ _ _ _ _ _ H E b Eb).
  - bi E. bi E. destruct x0 as [[b1 nx1] m1]. bi E. destruct x0 as [[[o2 q2] nx2] m2]. injection E as <- _ _ _.
    refine (IH _ _ _ _ _ _ _ _ E2 b Eb). intros a Ea. injection Ea as <-. exact (put_chunk_wf _ _ _ _ _ _ H E1).
  - bi E. destruct x as [[b1 nx1] m1]. bi E. destruct x as [[[o2 q2] nx2] m2]. injection E as <- _ _ _.
    refine (IH _ _ _ _ _ _ _ _ E1 b Eb). intros a Ea. injection Ea as <-. exact (put_chunk_wf _ _ _ _ _ _ H E0).
  - bi E. bi E. destruct x0 as [[[o2 q2] nx2] m2]. injection E as <- _ _ _. exact (IH _ _ _ _ _ _ _ H E1 b Eb).
Qed.

(** * The scheduler *)
Definition half (x : bitbuf * option tx_reporter) : Prop := block 124 (fst x).
Definition tidyq (q : list dl_elem) : Prop := Forall half (steals q).
Definition voices (l : list (list (list N))) : Prop := length l = 4 /\ Forall (Forall (Forall isbyte)) l.
Definition tidy (s : dls) : Prop := Forall tidyq (ds_q s) /\ ds_next s = [] /\ voices (uc_tx (ds_circ s)).
Lemma tidy_new code p : tidy (dls_new code p).
Proof. split; [|split]; [|reflexivity|]; cbn; repeat constructor. Qed.
Lemma ts_get_in {A} (P : A -> Prop) l k x : Forall P l -> ts_get l k = Ok x -> P x.
Proof. intros F E. unfold ts_get in E. destruct k; [discriminate E|]. cbn [unwrap] in E. unfold unwrap in E. destruct (nth_error l k) eqn:N; [|discriminate E]. injection E as <-. apply nth_error_In in N. rewrite Forall_forall in F. auto. Qed.
Lemma ts_set_in {A} (P : A -> Prop) l k x : Forall P l -> P x -> Forall P (ts_set l k x).
Proof. intros F H. unfold ts_set. generalize (k - 1). clear k. induction F as [|y l Y F IH]; intros k; [constructor|]. destruct k; cbn [upd]; constructor; auto. Qed.
Lemma tidy_get s k q : tidy s -> get_q k s = Ok q -> tidyq q.
Proof. intros (H & _) E. exact (ts_get_in _ _ _ _ H E). Qed.
Lemma tidy_put s k q : tidy s -> tidyq q -> tidy (put_q k q s).
Proof. intros (H & N0 & V) T. split; [|split; [exact N0|exact V]]. cbn. now apply ts_set_in. Qed.
Lemma tidyq_app a b : tidyq a -> tidyq b -> tidyq (a ++ b).
Proof. intros A B. unfold tidyq. rewrite steals_app. now apply Forall_app. Qed.
Lemma tidyq_same a b : steals b = steals a -> tidyq a -> tidyq b.
Proof. intros E T. unfold tidyq. now rewrite E. Qed.
Lemma tidy_like a b : ds_q b = ds_q a -> ds_next b = ds_next a -> ds_circ b = ds_circ a -> tidy a -> tidy b.
Proof. intros E1 E2 E3. unfold tidy. now rewrite E1, E2, E3. Qed.
Lemma push_tidy ts e s s' : tidy s -> (forall b rep, e = DlSteal b rep -> block 124 b) -> push_q ts e s = Ok s' -> tidy s'.
Proof.
  intros T H E. unfold push_q in E. bi E. injection E as <-. apply tidy_put; [exact T|]. apply tidyq_app; [exact (tidy_get _ _ _ T E0)|].
  destruct e; try (constructor; fail). unfold tidyq. cbn [steals flat_map app]. constructor; [|constructor]. exact (H _ _ eq_refl).
Qed.
Lemma voices_set l k x : voices l -> Forall (Forall isbyte) x -> voices (ts_set l k x).
Proof. intros (L & F) H. split; [unfold ts_set; now rewrite upd_length|now apply ts_set_in]. Qed.
Lemma take_tidy ts (m m1 : ucm N (list N)) o : voices (uc_tx m) -> ucm_take ts m = Ok (o, m1) ->
  voices (uc_tx m1) /\ forall b, o = Some b -> Forall isbyte b.
Proof.
  intros F E. unfold ucm_take in E. apply bind_inv in E. destruct E as (a & _ & E). destruct a; [|injection E as <- <-; split; [exact F|discriminate]].
  apply bind_inv in E. destruct E as (q & G & E). pose proof (ts_get_in _ _ _ _ (proj2 F) G) as FQ. destruct q as [|b q]; injection E as <- <-; [split; [exact F|discriminate]|].
  cbn [uc_tx]. split; [apply voices_set; [exact F|exact (Forall_inv_tail FQ)]|]. intros b' Eb. injection Eb as <-. exact (Forall_inv FQ).
Qed.
Lemma close_tidy d ts (m m1 : ucm N (list N)) o : voices (uc_tx m) -> ucm_close d ts m = Ok (o, m1) -> voices (uc_tx m1).
Proof.
  intros F E. unfold ucm_close in E. destruct d; try discriminate E; apply bind_inv in E; destruct E as (a & _ & E); injection E as _ <-; cbn [uc_tx]; [|exact F]. apply voices_set; [exact F|constructor].
Qed.
Lemma create_tidy d ts u (m m1 : ucm N (list N)) : voices (uc_tx m) -> ucm_create d ts u m = Ok m1 -> voices (uc_tx m1).
Proof.
  intros F E. unfold ucm_create in E. apply bind_inv in E. destruct E as (a & _ & E). apply bind_inv in E. destruct E as (m0 & E0 & E).
  assert (F0 : voices (uc_tx m0)).
  { destruct a; [|injection E0 as <-; exact F]. apply bind_inv in E0. destruct E0 as ([o0 m2] & E1 & E0). injection E0 as <-. exact (close_tidy _ _ _ _ _ F E1). }
  destruct d; try discriminate E; [|injection E as <-; exact F0]. apply bind_inv in E. destruct E as (q & _ & E). injection E as <-. cbn [uc_tx]. destruct q; [exact F0|apply voices_set; [exact F0|constructor]].
Qed.
Lemma put_tidy ts b (m m1 : ucm N (list N)) : voices (uc_tx m) -> Forall isbyte b -> ucm_put ts b m = Ok m1 -> voices (uc_tx m1).
Proof.
  intros F B E. unfold ucm_put in E. apply bind_inv in E. destruct E as (a & _ & E). destruct a; [|injection E as <-; exact F].
  apply bind_inv in E. destruct E as (q & G & E). injection E as <-. cbn [uc_tx]. apply voices_set; [exact F|]. apply Forall_app. split; [exact (ts_get_in _ _ _ _ (proj2 F) G)|now constructor].
Qed.
Lemma take_steal_tidy q b rep q' : take_first is_steal q = Some (DlSteal b rep, q') -> steals q = (b, rep) :: steals q'.
Proof.
  revert q'. induction q as [|e q IH]; intros q' E; cbn [take_first] in E; [discriminate E|]. destruct (is_steal e) eqn:S.
  - injection E as -> ->. reflexivity.
  - destruct (take_first is_steal q) as [[x t]|] eqn:T; [|discriminate E]. injection E as -> <-. cbn [steals flat_map]. destruct e; try discriminate S; cbn [app]; exact (IH _ eq_refl).
Qed.

(** Every block of a slot: well-formed, read from its beginning, a stolen half slot of 124 bits. *)
Definition ready (b : bitbuf) : Prop := wf b /\ bpos b = bstart b.
Definition slot_ready (k : dl_slot) : Prop :=
  ready (bk_buf (sl_bbk k)) /\ ready (bk_buf (sl_blk1 k)) /\ (forall b, sl_blk2 k = Some b -> ready (bk_buf b)) /\
  (bk_chan (sl_blk1 k) = CStch -> get_len (bk_buf (sl_blk1 k)) = Ok 124).
(** a block before it is rewound *)
Definition raw (k : dl_blk) : Prop := wf (bk_buf k) /\ autoexp (bk_buf k) = false /\ (bk_chan k = CStch -> get_len (bk_buf k) = Ok 124).
Lemma raw_block n c b scr : block n b -> (c = CStch -> n = 124) -> raw (mk_blk c b scr).
Proof. intros (W & A & L) H. split; [exact W|]. split; [exact A|]. cbn. intros C. now rewrite L, (H C). Qed.
Lemma null_raw k k' : raw k -> try_add_null k = Ok k' -> raw k'.
Proof.
  intros (W & A & L) E. unfold try_add_null in E.
  assert (X : (r <- get_len_remaining (bk_buf k) ;; if NULL_PDU_LEN_BITS <=? r then ' (_, p) <- mr_update_len_and_fill_ind mr_null_pdu 0 ;; b <- mr_write p (bk_buf k) ;; Ok (mk_blk (bk_chan k) b (bk_scr k)) else Ok k) = Ok k' -> raw k').
  { intros X. bi X. destruct (_ <=? _); [|injection X as <-; split; [exact W|split; [exact A|exact L]]]. bi X. destruct x0 as [n0 p]. bi X. injection X as <-. destruct (mr_safe _ _ _ W A E2) as (W1 & S1).
    split; [exact W1|]. cbn [bk_buf bk_chan]. split; [destruct S1 as (_ & _ & ->); exact A|]. rewrite (stays_len _ _ S1). exact L. }
  destruct (bk_chan k) eqn:C; try (injection E as <-; split; [exact W|split; [exact A|rewrite C; exact L]]); exact (X E).
Qed.
Lemma rewind_ready k k' : raw k -> rewind k = Ok k' -> ready (bk_buf k') /\ bk_chan k' = bk_chan k /\ get_len (bk_buf k') = get_len (bk_buf k).
Proof.
  intros (W & A & L) E. unfold rewind in E. bi E. injection E as <-. cbn [bk_buf bk_chan]. unfold seek in E0. bi E0. injection E0 as <-. split; [|split; reflexivity].
  split; [|cbn [set_pos bpos bstart]; lia]. destruct W as (W1 & W2 & W3 & W4). unfold wf, set_pos, cap in *. cbn. repeat split; try lia; try assumption.
Qed.
Lemma default_raw ts s b : generate_default ts s = Ok b -> raw b.
Proof.
  unfold generate_default. intros E. destruct ((1 <=? tm_f ts)%Z && (tm_f ts <=? 17)%Z && (tm_t ts =? 1)%Z).
  - destruct (tm_f ts mod 2 =? 0)%Z; bi E; injection E as <-; eapply raw_block; try exact (block_write _ _ _ _ (mr_safe _) (block_bb _) E0); discriminate.
  - match type of E with (if ?c then _ else _) = _ => destruct c end; [|discriminate E]. bi E. bi E. injection E as <-.
    eapply raw_block; [exact (block_write _ _ _ _ (msync_safe _) (block_write _ _ _ _ (sync_safe _) (block_bb _) E0) E1)|discriminate].
Qed.
Lemma bbk_raw ts s b : generate_bbk ts s = Ok b -> raw b.
Proof.
  unfold generate_bbk. cbv zeta. intros E. bi E. bi E. bi E. injection E as <-.
  assert (B : block 14 x1).
  { match type of E2 with (if ?c then _ else _) = _ => destruct c end.
    - apply bind_inv in E2. destruct E2 as (aa & _ & E2). exact (block_write _ _ _ _ (aa_safe _) (block_bb _) E2).
    - apply bind_inv in E2. destruct E2 as (u & _ & E2). exact (block_write _ _ _ _ (a18_safe _) (block_bb _) E2). }
  eapply raw_block; [exact B|discriminate].
Qed.
Lemma sysinfo_raw ts s b : sysinfo_blk ts s = Ok b -> raw b.
Proof.
  unfold sysinfo_blk. intros E. bi E. bi E. injection E as <-.
  eapply raw_block; [exact (block_write _ _ _ _ (msi_safe _) (block_write _ _ _ _ (si_safe _) (block_bb _) E0) E1)|discriminate].
Qed.
Lemma raw_end_wf e b b' : wf b -> autoexp b = false -> set_raw_end e b = Ok b' -> wf b' /\ autoexp b' = false.
Proof.
  intros (W1 & W2 & W3 & W4) A E. unfold set_raw_end in E. bi E. bi E. bi E. injection E as <-. split; [|exact A].
  unfold assert in *. destruct (e <=? cap b) eqn:X1; [|discriminate E0]. destruct (bstart b <=? e) eqn:X2; [|discriminate E1]. destruct (bpos b <=? e) eqn:X3; [|discriminate E2].
  apply Nat.leb_le in X1, X2, X3. unfold wf, set_end, cap in *. cbn [bstart bpos bend bytes]. repeat split; assumption.
Qed.
Lemma content_raw ts dla hang s o1 o2 s1 m : tidy s -> slot_content ts dla hang s = Ok (o1, o2, s1, m) -> tidy s1 /\ (forall b, o1 = Some b -> raw b) /\ (forall b, o2 = Some b -> raw b).
Proof.
  intros T E. unfold slot_content in E. cbv zeta in E. destruct (dla && negb hang).
  - bi E. destruct x as [[[tch st] s2] m2]. unfold dl_build_traffic in E0. bi E0. destruct x as [v c]. destruct T as (TQ & TN & TV).
    destruct (take_tidy _ _ _ _ TV E1) as (TV1 & VB). apply bind_inv in E0. destruct E0 as (tb & ET & E0). apply bind_inv in E0. destruct E0 as (q & EQ & E0).
    assert (WT : wf tb /\ autoexp tb = false).
    { destruct v as [v|]; [|injection ET as <-; split; [apply wf_new|reflexivity]]. cbv zeta in ET. apply (raw_end_wf _ (bb_from_vec v) tb) in ET; [exact ET| |reflexivity]. exact (wf_from_vec _ (VB _ eq_refl)). }
    assert (T1 : tidy (set_circ c s)) by (split; [exact TQ|split; [exact TN|exact TV1]]).
    assert (RT : forall scr, raw (mk_blk CTchS tb scr)) by (intros scr; destruct WT as (WT1 & WT2); split; [exact WT1|split; [exact WT2|discriminate]]).
    pose proof (tidy_get _ _ _ T1 EQ) as QT. destruct (take_first is_steal q) as [[e q']|] eqn:TF.
    + destruct e; try discriminate E0. bi E0. injection E0 as <- <- <- <-. pose proof (take_steal_tidy _ _ _ _ TF) as SE. unfold tidyq in QT. rewrite SE in QT.
      injection E as <- <- <- _. split; [apply tidy_put; [exact T1|exact (Forall_inv_tail QT)]|]. split; intros b0 Eb; injection Eb as <-; [|apply RT]. apply (raw_block 124); [exact (Forall_inv QT)|reflexivity].
    + injection E0 as <- <- <- <-. injection E as <- <- <- _. split; [exact T1|]. split; intros b Eb; [injection Eb as <-; apply RT|discriminate Eb].
  - bi E. bi E. destruct x0 as [[o s2] m2].
    assert (T1 : tidy x).
    { unfold dl_integrate in E0. bi E0. bi E0. injection E0 as <-. apply tidy_put; [exact T|].
      match goal with HI : integrate_all _ _ = Ok _ |- _ => pose proof (integrate_steals _ _ _ HI) as S1 end. rewrite steals_notes in S1. apply (tidyq_same _ _ S1). exact (tidy_get _ _ _ T E2). }
    unfold dl_build_signalling in E1. bi E1. bi E1. destruct x1 as [[[o' q'] nx] m']. destruct (build_steals _ _ _ _ _ _ _ _ _ E3) as (S2 & S3).
    pose proof (fun b => build_wf _ _ _ _ None _ _ _ _ ltac:(intros ? D; discriminate D) E3 b) as BW. destruct T1 as (TQ & TN & TV). rewrite TN in S3.
    pose proof (tidyq_same _ _ S2 (ts_get_in _ _ _ _ TQ E2)) as T2. pose proof (tidyq_same _ _ S3 ltac:(constructor)) as T3.
    assert (X : o = o' /\ tidy s2).
    { destruct nx as [|e nx]; [|destruct q'; [|discriminate E1]]; injection E1 as <- <- _; (split; [reflexivity|]); (split; [|split; [reflexivity|exact TV]]); cbn; now apply ts_set_in. }
    destruct X as (-> & TS). destruct o' as [b|].
    + injection E as <- <- <- _. split; [exact TS|]. split; intros b' Eb; [injection Eb as <-|discriminate Eb]. apply (raw_block 268); [exact (BW _ eq_refl)|discriminate].
    + destruct (hang && dla); [|injection E as <- <- <- _; split; [exact TS|split; discriminate]]. bi E. injection E as <- <- <- _. split; [exact TS|]. split; intros b' Eb; [injection Eb as <-|discriminate Eb].
      eapply raw_block; [exact (block_write _ _ _ _ (mr_safe _) (block_bb _) E4)|discriminate].
Qed.
Lemma finalize_ready s k s' m : tidy s -> finalize_ts s = Ok (k, s', m) -> tidy s' /\ slot_ready k.
Proof.
  intros T E. unfold finalize_ts in E. cbv zeta in E.
  bi E. bi E. bi E. bi E. destruct x2 as [[[o1 o2] s1] m1]. cbn [fst snd] in E.
  assert (T0 : tidy (set_pre (stamp (add_timeslots (ds_cur s) 1) (ds_pre s)) s)) by exact T.
  destruct (content_raw _ _ _ _ _ _ _ _ T0 E3) as (TS & R1 & R2).
  apply bind_inv in E. destruct E as (u0 & _ & E). apply bind_inv in E. destruct E as (bk & EB & E). apply bind_inv in E. destruct E as (b1 & E1' & E).
  apply bind_inv in E. destruct E as (b2 & E2' & E). apply bind_inv in E. destruct E as (n1 & N1 & E). apply bind_inv in E. destruct E as (n2 & N2 & E).
  apply bind_inv in E. destruct E as (rk & RK & E). apply bind_inv in E. destruct E as (r1 & RR1 & E). apply bind_inv in E. destruct E as (r2 & RR2 & E).
  apply bind_inv in E. destruct E as (u & _ & E). injection E as <- <- _.
  assert (Q1 : raw b1) by (destruct o1; [injection E1' as <-; now apply R1|exact (default_raw _ _ _ E1')]).
  assert (Q2 : forall b, b2 = Some b -> raw b).
  { intros b ->. assert (D : o2 = Some b \/ exists ts s, sysinfo_blk ts s = Ok b).
    { destruct (bk_chan b1), o2 as [c2|]; try (left; congruence); try discriminate E2';
      first [ apply bind_inv in E2'; destruct E2' as (l & _ & E2'); apply bind_inv in E2'; destruct E2' as (l' & _ & E2'); first [discriminate E2' | apply bind_inv in E2'; destruct E2' as (b' & SB & E2'); injection E2' as <-; right; eauto] ]. }
    destruct D as [->|(t & s0 & D)]; [now apply R2|exact (sysinfo_raw _ _ _ D)]. }
  split; [apply (tidy_like s1); [reflexivity|reflexivity|reflexivity|exact TS]|].
  pose proof (null_raw _ _ Q1 N1) as P1. destruct (rewind_ready _ _ P1 RR1) as (A1 & C1 & L1). destruct P1 as (_ & _ & P1).
  split; [exact (proj1 (rewind_ready _ _ (bbk_raw _ _ _ EB) RK))|]. cbn [sl_blk1 sl_blk2]. split; [exact A1|]. split.
  - intros b ->. destruct n2 as [n2|]; [|discriminate RR2]. bi RR2. injection RR2 as <-. destruct b2 as [b2|]; [|discriminate N2]. bi N2. injection N2 as <-.
    match goal with HR : rewind ?a = Ok ?b |- ready (bk_buf ?b) => exact (proj1 (rewind_ready _ _ (null_raw _ _ (Q2 _ eq_refl) ltac:(eassumption)) HR)) end.
  - intros C. rewrite L1. apply P1. congruence.
Qed.

(** * The upper MAC *)
Definition ev_tidy (e : dl_event) : Prop := match e with DvSteal _ b _ => block 124 b | DvVoice _ b => Forall isbyte b | _ => True end.
Lemma clear_tidy ts s : tidy s -> tidy (clear_hang ts s).
Proof. intros T. unfold clear_hang. destruct (_ && _); exact T. Qed.
Lemma dl_step_tidy e s o m s' : ev_tidy e -> tidy s -> dl_step e s = Ok (o, m, s') -> tidy s' /\ forall k, o = Some k -> slot_ready k.
Proof.
  intros F T E. destruct e as [t| |ts p sdu rep|ts a g|ts a|ts b rep|ts ssi|ts blk|ts act|dr ts u|dr ts|ts ssi req|on]; cbn [dl_step ev_tidy] in *.
  - bi E. destruct x as [s0 m0]. bi E. destruct x as [[k s2] m2]. injection E as <- _ <-.
    assert (T0 : tidy s0). { unfold set_dl_time in E0. apply bind_inv in E0. destruct E0 as (m1 & _ & E0). injection E0 as <- _. destruct T as (_ & TN & TV). split; [|split; [exact TN|exact TV]]. cbn. repeat constructor. }
    destruct (finalize_ready _ _ _ _ T0 E1) as (A & B). split; [exact A|]. intros k' Ek. injection Ek as <-. exact B.
  - bi E. bi E. destruct x0 as [[k s2] m2]. injection E as <- _ <-.
    assert (T0 : tidy x). { unfold dl_tick_start in E0. apply bind_inv in E0. destruct E0 as (m1 & _ & E0). injection E0 as <-. exact T. }
    destruct (finalize_ready _ _ _ _ T0 E1) as (A & B). split; [exact A|]. intros k' Ek. injection Ek as <-. exact B.
  - bi E. injection E as <- _ <-. split; [|discriminate]. refine (push_tidy _ _ _ _ T _ E0). discriminate.
  - bi E. injection E as <- _ <-. split; [|discriminate]. refine (push_tidy _ _ _ _ T _ E0). discriminate.
  - bi E. injection E as <- _ <-. split; [|discriminate]. refine (push_tidy _ _ _ _ T _ E0). discriminate.
  - bi E. injection E as <- _ <-. split; [|discriminate]. refine (push_tidy _ _ _ _ T _ E0). intros b' r' Eb. injection Eb as <- _. exact F.
  - bi E. destruct x as [b0 s0]. injection E as <- _ <-. split; [|discriminate]. unfold take_pending_ra_ack in E0. bi E0. destruct (remove_first ssi x); injection E0 as _ <-; exact T.
  - bi E. injection E as <- _ <-. split; [|discriminate]. unfold dl_schedule_tmd in E0. bi E0. injection E0 as <-. destruct T as (TQ & TN & TV). split; [exact TQ|split; [exact TN|exact (put_tidy _ _ _ _ TV F E)]].
  - bi E. destruct x as [s0 m0]. injection E as <- _ <-. split; [|discriminate]. unfold set_hangtime in E0. destruct (_ && _); [|injection E0 as <- _; exact T].
    destruct act; [injection E0 as <- _; exact T|]. unfold dl_drop_all_except_stolen in E0. bi E0. bi E0. destruct x0 as [[k r] m1]. bi E0. injection E0 as <- _.
    apply (tidy_put s ts k T). apply (tidyq_same _ _ (drop_steals _ _ _ _ E1)). exact (ts_get_in _ _ _ _ (proj1 T) E).
  - bi E. injection E as <- _ <-. split; [|discriminate]. unfold dl_create_circuit in E0. bi E0. injection E0 as <-. destruct (clear_tidy ts s T) as (TQ & TN & TV). split; [exact TQ|split; [exact TN|]].
    exact (create_tidy _ _ _ _ _ (proj2 (proj2 T)) E).
  - bi E. destruct x as [o0 s0]. injection E as <- _ <-. split; [|discriminate]. unfold dl_close_circuit in E0. bi E0. destruct x as [o1 c]. injection E0 as _ <-.
    destruct (clear_tidy ts s T) as (TQ & TN & TV). split; [exact TQ|split; [exact TN|]]. exact (close_tidy _ _ _ _ _ (proj2 (proj2 T)) E).
  - bi E. destruct x as [g u]. injection E as <- _ <-. split; [exact T|discriminate].
  - injection E as <- _ <-. split; [exact T|discriminate].
Qed.
Lemma did_tidy evs : forall s s', Forall ev_tidy evs -> tidy s -> did evs s s' -> tidy s'.
Proof.
  induction evs as [|e evs IH]; intros s s' F T (log & E); cbn [dl_run] in E; [injection E as _ <-; exact T|].
  bi E. destruct x as [[o m] s2]. bi E. destruct x as [lg s3]. injection E as _ <-. apply (IH s2 s3 (Forall_inv_tail F)); [|now exists lg].
  exact (proj1 (dl_step_tidy _ _ _ _ _ (Forall_inv F) T E0)).
Qed.
Lemma stch_block_wf raf r b : stch_block raf r = Ok b -> block 124 b.
Proof.
  intros E. unfold stch_block in E. cbv zeta in E. bi E. bi E. destruct x0 as [n p]. bi E. bi E. bi E. destruct x2 as [b1 s1]. injection E as <-.
  pose proof (block_write _ _ _ _ (mr_safe _) (block_bb _) E2) as B. apply (block_to _ _ _) with (2 := B). destruct B as (W & A & _). exact (copy_safe _ _ _ _ _ _ W A E4).
Qed.
Lemma pack_byte_is data : forall n i b x y, isbyte x -> pack_byte data i b n x = Ok y -> isbyte y.
Proof.
  induction n as [|n IH]; intros i b x y X E; cbn [pack_byte] in E; [injection E as <-; exact X|]. cbv zeta in E. apply bind_inv in E. destruct E as (z & EZ & E). refine (IH _ _ _ _ _ E).
  match type of EZ with (if ?c then _ else _) = _ => destruct c end; [|injection EZ as <-; exact X]. apply bind_inv in EZ. destruct EZ as (v & _ & EZ). injection EZ as <-.
  apply isbyte_intro. intros k Hk. rewrite N.lor_spec, (isbyte_testbit _ k X Hk), tb_shl8. destruct (Nat.ltb_spec k 8); [lia|]. now rewrite Bool.andb_false_r.
Qed.
Lemma pack_bytes_are data : forall n i out, pack_bytes data i n = Ok out -> Forall isbyte out.
Proof.
  induction n as [|n IH]; intros i out E; cbn [pack_bytes] in E; [injection E as <-; constructor|]. bi E. bi E. injection E as <-. constructor; [|exact (IH _ _ E1)].
  refine (pack_byte_is _ _ _ _ _ _ _ E0). unfold isbyte. lia.
Qed.
Lemma pack_is data b : Forall isbyte data -> pack_ul_acelp_bits data = Ok (Some b) -> Forall isbyte b.
Proof.
  intros F E. unfold pack_ul_acelp_bits in E. match type of E with (if ?c then _ else _) = _ => destruct c end; [injection E as <-; exact F|].
  match type of E with (if ?c then _ else _) = _ => destruct c end; [discriminate E|]. apply bind_inv in E. destruct E as (l & EL & E). injection E as <-. exact (pack_bytes_are _ _ _ _ EL).
Qed.
(** Speech is given as bytes. *)
Definition voice_bytes (e : um_event) : Prop := match e with UeDlVoice _ d | UeUlVoice _ _ d => Forall isbyte d | _ => True end.
Lemma schedule_tidy ts b s s' : Forall isbyte b -> tidy s -> dl_schedule_tmd ts b s = Ok s' -> tidy s'.
Proof.
  intros F T E. assert (ES : dl_step (DvVoice ts b) s = Ok (None, [], s')) by (cbn [dl_step]; rewrite E; reflexivity). exact (proj1 (dl_step_tidy (DvVoice ts b) _ _ _ _ F T ES)).
Qed.
Lemma refresh_tidy c cn w s : tidy s -> tidy (snd (refresh_sws c cn w s)).
Proof. intros T. unfold refresh_sws. repeat (match goal with |- context [if ?c then _ else _] => destruct c end); exact T. Qed.
Lemma tick_tidy c cn t u u' o m : tidy (um_sch u) -> tick_start c cn t u = Ok (u', o, m) -> tidy (um_sch u') /\ forall k, In (OutSlot k) o -> slot_ready k.
Proof.
  intros T E. unfold tick_start in E. pose proof (refresh_tidy c cn (um_sws u) (um_sch u) T) as T0. destruct (refresh_sws c cn (um_sws u) (um_sch u)) as [sws s0]. cbn [snd] in T0.
  bi E. destruct x as [s1 m0]. bi E. destruct x as [u1 o1]. bi E. destruct x as [[k s2] m2]. injection E as <- <- _.
  assert (T1 : tidy s1).
  { destruct (_ && _).
    - unfold set_dl_time in E0. apply bind_inv in E0. destruct E0 as (m1 & _ & E0). injection E0 as <- _. destruct T0 as (_ & TN & TV). split; [|split; [exact TN|exact TV]]. cbn. repeat constructor.
    - apply bind_inv in E0. destruct E0 as (s3 & E3 & E0). injection E0 as <- _. unfold dl_tick_start in E3. apply bind_inv in E3. destruct E3 as (m1 & _ & E3). injection E3 as <-. exact T0. }
  destruct (SlotRun.silence_quiet _ _ _ _ E1) as (_ & NS). pose proof (silence_same _ _ _ _ E1) as (SU & _). cbn [um_sch] in SU. rewrite SU in E2.
  destruct (finalize_ready _ _ _ _ T1 E2) as (A & B). split; [exact A|]. intros k' HI. apply in_app_iff in HI. destruct HI as [HI|[HI|[]]]; [exfalso; exact (NS _ HI)|]. injection HI as <-. exact B.
Qed.
Lemma step_tidy c e u u' o m : ev_fine e -> voice_bytes e -> (match e with UeTick _ _ => True | _ => sound u end) -> tidy (um_sch u) -> um_step c e u = Ok (u', o, m) ->
  tidy (um_sch u') /\ match e with UeTick _ _ => forall k, In (OutSlot k) o -> slot_ready k | _ => True end.
Proof.
  intros F V S T E.
  assert (K : match e with UeBlock _ _ | UeControl _ => True | _ => False end -> sound u -> tidy (um_sch u')).
  { intros NE SD. destruct (step_did c e u u' o m F SD E) as (_ & evs & FE & D). refine (did_tidy _ _ _ _ T D). destruct e; try contradiction; cbn [from_event] in FE.
    - revert FE. apply Forall_impl. intros [] A; try contradiction; exact Logic.I.
    - revert FE. apply Forall_impl. intros [] A; try contradiction; exact Logic.I. }
  destruct e as [cn t|i pdu|r|ts data|t ts data|k]; cbn [voice_bytes] in V.
  - exact (tick_tidy _ _ _ _ _ _ _ T E).
  - split; [|exact Logic.I]. now apply K.
  - split; [|exact Logic.I]. cbn [um_step] in E. bi E. injection E as <- _ _. cbn [um_sch set_sch]. unfold rx_tma_unitdata_req in E0. bi E0. destruct x0 as [ts|].
    + bi E0. destruct x0 as [ra s1]. bi E0. pose proof (stch_block_wf _ _ _ E2) as B.
      assert (T1 : tidy s1). { unfold take_pending_ra_ack in E1. bi E1. destruct (remove_first _ x1); injection E1 as _ <-; exact T. }
      refine (push_tidy _ _ _ _ T1 _ E0). intros b' r' Eb. injection Eb as <- _. exact B.
    + bi E0. bi E0. destruct x1 as [n1 p]. refine (push_tidy _ _ _ _ T _ E0). discriminate.
  - split; [|exact Logic.I]. cbn [um_step] in E. bi E. injection E as <- _ _. unfold rx_dl_voice in E0. bi E0.
    assert (X : um_sch x0 = um_sch u). { destruct (_ && _); [|injection E as <-; reflexivity]. bi E. injection E as <-. destruct x1; [apply voice_same|reflexivity]. }
    bi E0. destruct x1; [|injection E0 as <-; now rewrite X]. bi E0. injection E0 as <-. cbn [um_sch set_sch]. rewrite X in E2. exact (schedule_tidy _ _ _ _ V T E2).
  - split; [|exact Logic.I]. cbn [um_step] in E. bi E. destruct x as [u1 o1]. injection E as <- _ _. unfold rx_ul_voice in E0. destruct (voice_same ts (Some (um_time u)) u) as (X1 & X2).
    bi E0. bi E0. destruct x0; [|injection E0 as <- _; now rewrite X1]. bi E0. destruct x0 as [b|]; [|injection E0 as <- _; now rewrite X1]. bi E0. injection E0 as <- _.
    cbn [um_sch set_sch]. rewrite X1 in E3. exact (schedule_tidy _ _ _ _ (pack_is _ _ V E2) T E3).
  - split; [|exact Logic.I]. now apply K.
Qed.
Lemma new_tidy c cn u : umac_new c cn = Ok u -> tidy (um_sch u).
Proof. intros E. unfold umac_new in E. bi E. injection E as <-. cbn [um_sch]. split; [|split]; [|reflexivity|]; cbn; repeat constructor. Qed.
