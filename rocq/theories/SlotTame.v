(** Writing into a block of fixed size leaves its size alone, whatever is written. *)
From Coq Require Import Arith.
From Verif Require Import Base BitBuffer Codec TypedFields MacFields MacPdus FillBits TxReceipt BsFrag DlSched DlSlot.
Open Scope nat_scope.

Definition stays (b b' : bitbuf) : Prop := bstart b' = bstart b /\ bend b' = bend b /\ autoexp b' = autoexp b.
Lemma stays_refl b : stays b b.
Proof. now split. Qed.
Lemma stays_trans a b c : stays a b -> stays b c -> stays a c.
Proof. unfold stays. intuition congruence. Qed.
Lemma stays_len a b : stays a b -> get_len b = get_len a.
Proof. intros (A & B & _). unfold get_len. now rewrite A, B. Qed.
Definition tame (w : wr) : Prop := forall b b', autoexp b = false -> w b = Ok b' -> stays b b'.
Lemma tame_bits v n : tame (write_bits v n).
Proof.
  intros b b' A E. unfold write_bits in E. bi E. bi E. bi E. assert (x1 = b) as -> by (rewrite A in E2; destruct (_ <? _); congruence).
  bi E. destruct x1 as [[l cur] rm]. bi E. bi E. injection E as <-. now split.
Qed.
Lemma tame_bit v : tame (write_bit v).
Proof.
  intros b b' A E. unfold write_bit in E. bi E. bi E. assert (x0 = b) as -> by (rewrite A in E1; destruct (_ <? _); congruence).
  bi E. bi E. injection E as <-. now split.
Qed.
Lemma tame_then w1 w2 : tame w1 -> tame w2 -> tame (wthen w1 w2).
Proof.
  intros H1 H2 b b' A E. unfold wthen in E. bi E. pose proof (H1 _ _ A E0) as S1. apply stays_trans with x; [exact S1|]. apply H2; [|exact E]. destruct S1 as (_ & _ & ->). exact A.
Qed.
Lemma tame_ret : tame wret.
Proof. intros b b' _ E. injection E as <-. apply stays_refl. Qed.
Lemma tame_panic : tame wpanic.
Proof. intros b b' _ E. discriminate E. Qed.
Lemma tame_assert c : tame (wassert c).
Proof. destruct c; [apply tame_ret|apply tame_panic]. Qed.
Lemma tame_unwrap {A} (x : option A) w : (forall v, tame (w v)) -> tame (w_unwrap x w).
Proof. intros H. destruct x; [apply H|apply tame_panic]. Qed.
Lemma tame_flag {A} (x : option A) w : (forall v, tame (w v)) -> tame (wopt_flag x w).
Proof. intros H. unfold wopt_flag. destruct x; [apply tame_then; [apply tame_bits|apply H]|apply tame_bits]. Qed.
Ltac tm1 := lazymatch goal with
  | |- tame (wthen _ _) => apply tame_then
  | |- tame wret => apply tame_ret
  | |- tame wpanic => apply tame_panic
  | |- tame (wassert _) => apply tame_assert
  | |- tame (w_unwrap _ _) => apply tame_unwrap; intros ?
  | |- tame (wopt_flag _ _) => apply tame_flag; intros ?
  | |- tame (wfield _ _) => apply tame_bits
  | |- tame (wflag _) => apply tame_bits
  | |- tame (match ?x with _ => _ end) => destruct x
  end.
Ltac tm := repeat tm1.
Lemma sg_tame g : tame (sg_write g).
Proof. unfold sg_write. tm. Qed.
Lemma ca_tame c : tame (ca_write c).
Proof. unfold ca_write. tm. Qed.
Lemma mr_tame p : tame (mr_write p).
Proof. unfold mr_write, mr_write_addr. cbv zeta. tm; first [apply sg_tame | apply ca_tame]. Qed.
Lemma mend_tame p : tame (mend_write p).
Proof. unfold mend_write. tm; first [apply sg_tame | apply ca_tame]. Qed.
Lemma mfrag_tame f : tame (mfrag_write f).
Proof. unfold mfrag_write. tm. Qed.
Lemma copy_tame fuel : forall n b src b' src', autoexp b = false -> copy_bits_loop fuel n b src = Ok (b', src') -> stays b b'.
Proof.
  induction fuel as [|f IH]; intros n b src b' src' A E; cbn [copy_bits_loop] in E; destruct (n =? 0); try (injection E as <- _; apply stays_refl); [discriminate E|].
  bi E. bi E. bi E. destruct x1 as [ov s1]. bi E. bi E. pose proof (tame_bits _ _ _ _ A E4) as S1. apply stays_trans with x2; [exact S1|]. eapply IH; [|exact E]. destruct S1 as (_ & _ & ->). exact A.
Qed.
Lemma zeroes_tame n : tame (write_zeroes n).
Proof.
  unfold write_zeroes. assert (H : forall fuel n, tame (write_zeroes_loop fuel n)).
  { induction fuel as [|f IH]; intros k b b' A E; cbn [write_zeroes_loop] in E; destruct (k =? 0); try (injection E as <-; apply stays_refl); [discriminate E|].
    bi E. pose proof (tame_bits _ _ _ _ A E0) as S1. apply stays_trans with x; [exact S1|]. eapply IH; [|exact E]. destruct S1 as (_ & _ & ->). exact A. }
  apply H.
Qed.
Lemma pad_tame n : tame (fg_pad n).
Proof.
  unfold fg_pad. destruct (0 <? n); [|exact tame_ret]. apply (tame_then (write_bit 1) (write_zeroes (n - 1))); [apply tame_bit|apply zeroes_tame].
Qed.

Lemma fill_tame n : tame (fill_write n).
Proof.
  destruct n as [n|]; unfold fill_write.
  - exact (pad_tame n).
  - intros b b' A E. bi E. destruct (0 <? x); [|injection E as <-; apply stays_refl]. bi E. bi E. pose proof (tame_bit _ _ _ A E1) as S1.
    apply stays_trans with x0; [exact S1|]. apply (zeroes_tame x1); [|exact E]. destruct S1 as (_ & _ & ->). exact A.
Qed.
Ltac on A := first [exact A | match goal with H : stays ?b ?c |- autoexp ?c = false => destruct H as (_ & _ & ->); exact A end].
Lemma resource_tame f b dn f' b' : autoexp b = false -> fg_resource_chunk f b = Ok (dn, f', b') -> stays b b'.
Proof.
  intros A E. unfold fg_resource_chunk in E. bi E. bi E. bi E. bi E. bi E. bi E. bi E. cbv zeta in E.
  destruct (_ <=? _).
  - bi E. bi E. bi E. destruct x8 as [b1 s1]. bi E. injection E as _ _ <-.
    pose proof (mr_tame _ _ _ A E8) as S1. apply stays_trans with x7; [exact S1|]. assert (A1 : autoexp x7 = false) by (destruct S1 as (_ & _ & ->); exact A).
    pose proof (copy_tame _ _ _ _ _ _ A1 E9) as S2. apply stays_trans with b1; [exact S2|]. apply (fill_tame _ _ _ (eq_trans (proj2 (proj2 S2)) A1) E10).
  - destruct (_ || _); [injection E as _ _ <-; apply stays_refl|]. bi E. bi E. bi E. destruct x8 as [b1 s1]. bi E. injection E as _ _ <-.
    pose proof (mr_tame _ _ _ A E8) as S1. apply stays_trans with x7; [exact S1|]. assert (A1 : autoexp x7 = false) by (destruct S1 as (_ & _ & ->); exact A).
    pose proof (copy_tame _ _ _ _ _ _ A1 E9) as S2. apply stays_trans with b1; [exact S2|]. apply (fill_tame _ _ _ (eq_trans (proj2 (proj2 S2)) A1) E10).
Qed.
Lemma end_tame f b dn f' b' : autoexp b = false -> fg_frag_or_end_chunk f b = Ok (dn, f', b') -> stays b b'.
Proof.
  intros A E. unfold fg_frag_or_end_chunk in E. bi E. bi E. bi E. cbv zeta in E. bi E. destruct (_ <=? _).
  - bi E. bi E. destruct x4 as [b1 s1]. bi E. injection E as _ _ <-.
    pose proof (mend_tame _ _ _ A E4) as S1. apply stays_trans with x3; [exact S1|]. assert (A1 : autoexp x3 = false) by (destruct S1 as (_ & _ & ->); exact A).
    pose proof (copy_tame _ _ _ _ _ _ A1 E5) as S2. apply stays_trans with b1; [exact S2|]. apply (pad_tame _ _ _ (eq_trans (proj2 (proj2 S2)) A1) E6).
  - destruct (_ <? _); [injection E as _ _ <-; apply stays_refl|]. bi E. bi E. destruct x4 as [b1 s1]. bi E. injection E as _ _ <-.
    pose proof (mfrag_tame _ _ _ A E4) as S1. apply stays_trans with x3; [exact S1|]. assert (A1 : autoexp x3 = false) by (destruct S1 as (_ & _ & ->); exact A).
    pose proof (copy_tame _ _ _ _ _ _ A1 E5) as S2. apply stays_trans with b1; [exact S2|]. apply (pad_tame _ _ _ (eq_trans (proj2 (proj2 S2)) A1) E6).
Qed.
(** A block of 268 bits that cannot grow. *)
Definition block268 (b : bitbuf) : Prop := autoexp b = false /\ get_len b = Ok 268.
Lemma block_stays a b : stays a b -> block268 a -> block268 b.
Proof. intros S (A & L). split; [destruct S as (_ & _ & ->); exact A|]. rewrite (stays_len _ _ S). exact L. Qed.
Lemma block_new : block268 (bb_new SCH_F_CAP).
Proof. split; reflexivity. Qed.
Lemma chunk_block f buf next b nx m : (forall a, buf = Some a -> block268 a) -> put_chunk f buf next = Ok (b, nx, m) -> block268 b.
Proof.
  intros H E. unfold put_chunk in E. bi E. destruct x as [[dn f1] b1]. assert (b = b1) as -> by (destruct dn; congruence). clear E.
  assert (B0 : block268 (match buf with Some b => b | None => bb_new SCH_F_CAP end)) by (destruct buf; [now apply H|apply block_new]).
  unfold fg_next_chunk in E0. bi E0. bi E0. bi E0. bi E0. bi E0. destruct x3 as [[dn2 f2] b2]. bi E0. injection E0 as _ _ <-. apply (block_stays _ _) with (2 := B0).
  destruct (fg_hdr f); [exact (end_tame _ _ _ _ _ (proj1 B0) E4)|exact (resource_tame _ _ _ _ _ (proj1 B0) E4)].
Qed.
Lemma build_block fuel f18 : forall q next buf o q' nx m, (forall a, buf = Some a -> block268 a) -> build_loop fuel f18 q next buf = Ok (o, q', nx, m) -> forall b, o = Some b -> block268 b.
Proof.
  induction fuel as [|n IH]; intros q next buf o q' nx m H E b Eb.
  { destruct q; cbn [build_loop] in E; [injection E as <- _ _ _; now apply H|discriminate E]. }
  destruct q as [|e0 q0]; cbn [build_loop] in E; [injection E as <- _ _ _; now apply H|].
  destruct (dl_take_item f18 (e0 :: q0)) as [[e q1]|]; [|injection E as <- _ _ _; now apply H].
  destruct e; try discriminate E; try exact (IH _ _ _ _ _ _ _ H E b Eb).
  - bi E. bi E. destruct x0 as [[b1 nx1] m1]. bi E. destruct x0 as [[[o2 q2] nx2] m2]. injection E as <- _ _ _.
    refine (IH _ _ _ _ _ _ _ _ E2 b Eb). intros a Ea. injection Ea as <-. exact (chunk_block _ _ _ _ _ _ H E1).
  - bi E. destruct x as [[b1 nx1] m1]. bi E. destruct x as [[[o2 q2] nx2] m2]. injection E as <- _ _ _.
    refine (IH _ _ _ _ _ _ _ _ E1 b Eb). intros a Ea. injection Ea as <-. exact (chunk_block _ _ _ _ _ _ H E0).
  - bi E. bi E. destruct x0 as [[[o2 q2] nx2] m2]. injection E as <- _ _ _. exact (IH _ _ _ _ _ _ _ H E1 b Eb).
Qed.
Lemma null_block c b scr k1 k2 n : autoexp b = false -> get_len b = Ok n -> try_add_null (mk_blk c b scr) = Ok k1 -> rewind k1 = Ok k2 ->
  bk_chan k2 = c /\ bk_scr k2 = scr /\ get_len (bk_buf k2) = Ok n.
Proof.
  intros A L E R. assert (S : bk_chan k1 = c /\ bk_scr k1 = scr /\ stays b (bk_buf k1)).
  { unfold try_add_null in E. cbn [bk_chan bk_buf bk_scr] in E.
    assert (X : forall ch, (r <- get_len_remaining b ;; if NULL_PDU_LEN_BITS <=? r then ' (_, p) <- mr_update_len_and_fill_ind mr_null_pdu 0 ;; b <- mr_write p b ;; Ok (mk_blk ch b scr) else Ok (mk_blk ch b scr)) = Ok k1 ->
      bk_chan k1 = ch /\ bk_scr k1 = scr /\ stays b (bk_buf k1)).
    { intros ch X. bi X. destruct (_ <=? _); [|injection X as <-; cbn [bk_chan bk_scr bk_buf]; split; [reflexivity|split; [reflexivity|apply stays_refl]]].
      bi X. destruct x0 as [n0 p]. bi X. injection X as <-. cbn [bk_chan bk_scr bk_buf]. split; [reflexivity|]. split; [reflexivity|]. exact (mr_tame _ _ _ A E2). }
    destruct c; try exact (X _ E); injection E as <-; cbn [bk_chan bk_scr bk_buf]; split; [reflexivity|split; [reflexivity|apply stays_refl]| reflexivity|split; [reflexivity|apply stays_refl]|reflexivity|split; [reflexivity|apply stays_refl]|reflexivity|split; [reflexivity|apply stays_refl]|reflexivity|split; [reflexivity|apply stays_refl]]. }
  destruct S as (S1 & S2 & S3). unfold rewind in R. bi R. injection R as <-. cbn [bk_chan bk_scr bk_buf]. split; [exact S1|]. split; [exact S2|].
  unfold seek in E0. bi E0. injection E0 as <-. rewrite <- L, <- (stays_len _ _ S3). reflexivity.
Qed.
