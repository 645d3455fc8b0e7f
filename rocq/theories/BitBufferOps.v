(** Remaining [BitBuffer] operations: single bits, bulk writes, copies, conversions,
    and refinement of arbitrary operation histories to an abstract bit store. *)
From Verif Require Import Base BitsLib BitBuffer BitBufferProofs.
Open Scope N_scope.

Lemma write_bit_spec b x :
  wf b -> room b 1 ->
  exists b', write_bit (N.b2n x) b = Ok b' /\ wrote b b' [x] /\
    bend b' = (if (bpos b + 1 <=? bend b)%nat then bend b else bend b + 1)%nat.
Proof.
  intros W R. unfold write_bit.
  assert ((N.b2n x =? 0) || (N.b2n x =? 1) = true) as -> by (destruct x; reflexivity). cbn [assert bind].
  destruct (expand_spec _ _ W R) as (b1 & -> & W1 & S1 & P1 & A1 & En1 & L1 & Rm1 & Same1 & B1).
  cbn [bind]. pose proof W1 as (W1a & W1b & W1c & W1d). unfold cap in W1c.
  rewrite byte_at_ok by lia. cbn [bind]. rewrite byte_set_ok by lia. cbn [bind].
  eexists. split; [reflexivity|].
  set (p := bpos b1) in *. set (l := bytes b1) in *.
  set (l' := upd l (p / 8) _).
  assert (forall i, bit_at l' i = if ((p <=? i) && (i <? p + 1))%nat then x else bit_at l i) as HB.
  { intros i. unfold l'. rewrite bit_at_upd by lia.
    destruct (Nat.eqb_spec (i / 8) (p / 8)) as [E|E].
    - rewrite N.lor_spec, N.land_spec, tb_not8 by lia. rewrite !tb_shl8.
      destruct (Nat.ltb_spec (7 - i mod 8) 8); [|lia]. rewrite !Bool.andb_true_r.
      destruct ((p <=? i) && (i <? p + 1))%nat eqn:E2.
      + assert (i = p) as -> by lia. rewrite Nat.leb_refl, Nat.sub_diag. cbn [N.of_nat].
        change (N.testbit 1 0) with true. cbn [negb]. rewrite Bool.andb_false_r. destruct x; reflexivity.
      + destruct (Nat.leb_spec (7 - p mod 8) (7 - i mod 8)).
        * assert (0 < 7 - i mod 8 - (7 - p mod 8))%nat by lia.
          rewrite (testbit_high 1 1); [|reflexivity|lia]. rewrite (testbit_high (N.b2n x) 1); [|destruct x; reflexivity|lia].
          cbn [negb]. rewrite Bool.andb_true_r, Bool.orb_false_r. unfold bit_at. now rewrite E.
        * cbn [negb]. rewrite Bool.andb_true_r, Bool.orb_false_r. unfold bit_at. now rewrite E.
    - destruct ((p <=? i) && (i <? p + 1))%nat eqn:E2; [lia|reflexivity]. }
  unfold wrote. cbn [set_pos set_bytes bytes bstart bpos bend autoexp length]. rewrite !and_assoc.
  assert (length l' = length l) as HL by apply upd_length.
  split.
  { unfold wf, cap. cbn [set_pos set_bytes bytes bstart bpos bend autoexp]. repeat split; try lia.
    apply Forall_upd; [assumption|]. apply isbyte_intro. intros k Hk.
    rewrite N.lor_spec, N.land_spec, (isbyte_testbit _ k (isbyte_nth _ _ W1d) Hk), tb_shl8.
    destruct (Nat.ltb_spec k 8); [lia|]. now rewrite Bool.andb_false_r. }
  split; [exact S1|]. split; [exact A1|]. split; [lia|]. split; [fold l in L1; lia|].
  split.
  { intros i. rewrite HB. rewrite <- P1. destruct ((p <=? i) && (i <? p + 1))%nat eqn:E2; [|apply B1].
    replace (i - p)%nat with 0%nat by lia. reflexivity. }
  destruct (Nat.leb_spec (bpos b + 1) (bend b)) as [Hfit|Hfit].
  - split; [lia|]. split; [|split; [lia|exact En1]]. intros _. split; [exact En1|]. rewrite HL. unfold l. rewrite Same1 by lia. reflexivity.
  - repeat (split; [lia|]). exact En1.
Qed.

(** Writers in general. *)
Definition writer := bitbuf -> res bitbuf.
Definition writes (w : writer) (l : list bool) : Prop :=
  forall b, wf b -> room b (length l) -> exists b', w b = Ok b' /\ wrote b b' l.

Lemma writes_bits v n : (n <= 64)%nat -> v < 2 ^ N.of_nat n -> writes (write_bits v n) (bits_of n v).
Proof.
  intros Hn Hv b W R. rewrite bits_of_length in R.
  destruct (write_bits_spec b v n W Hn Hv R) as (b' & E & H & _). eauto.
Qed.

Lemma writes_bit x : writes (write_bit (N.b2n x)) [x].
Proof. intros b W R. destruct (write_bit_spec b x W R) as (b' & E & H & _). eauto. Qed.

Lemma writes_seq (w1 w2 : writer) l1 l2 : writes w1 l1 -> writes w2 l2 -> writes (fun b => b <- w1 b ;; w2 b) (l1 ++ l2).
Proof.
  intros H1 H2 b W R. rewrite app_length in R.
  destruct (H1 b W) as (b1 & E1 & O1); [eapply room_mono; [exact R|lia]|].
  destruct (H2 b1) as (b2 & E2 & O2); [apply O1|eapply room_after; eauto|].
  exists b2. rewrite E1. cbn [bind]. split; [assumption|]. eapply wrote_trans; eauto.
Qed.

Lemma write_zeroes_loop_spec fuel n : (n <= fuel)%nat -> writes (write_zeroes_loop fuel n) (repeat false n).
Proof.
  revert n. induction fuel as [|f IH]; intros n Hn.
  - assert (n = 0)%nat as -> by lia. intros b W R. exists b. split; [reflexivity|]. apply wrote_nil, W.
  - destruct (Nat.eqb_spec n 0) as [->|Hz].
    + intros b W R. exists b. split; [reflexivity|]. apply wrote_nil, W.
    + replace n with (Nat.min n 64 + (n - Nat.min n 64))%nat at 2 by lia. rewrite repeat_app.
      intros b W R. cbn [write_zeroes_loop]. destruct (Nat.eqb_spec n 0); [lia|].
      revert b W R. change (writes (fun b => b0 <- write_bits 0 (Nat.min n 64) b;; write_zeroes_loop f (n - Nat.min n 64) b0) (repeat false (Nat.min n 64) ++ repeat false (n - Nat.min n 64))).
      apply writes_seq; [|apply IH; lia].
      rewrite <- bits_of_0. apply writes_bits; [lia|apply pow2_pos].
Qed.
Lemma write_zeroes_spec n : writes (write_zeroes n) (repeat false n).
Proof. apply write_zeroes_loop_spec. lia. Qed.

Lemma bits_of_ones_n n : bits_of n (N.ones (N.of_nat n)) = repeat true n.
Proof.
  assert (forall m, (n <= m)%nat -> bits_of n (N.ones (N.of_nat m)) = repeat true n) as H; [|apply H; lia].
  induction n as [|n IH]; intros m Hm; [reflexivity|]. cbn [bits_of repeat]. rewrite N.ones_spec_low by lia. f_equal. apply IH. lia.
Qed.

Lemma write_ones_loop_spec fuel n : (n <= fuel)%nat -> writes (write_ones_loop fuel n) (repeat true n).
Proof.
  revert n. induction fuel as [|f IH]; intros n Hn.
  - assert (n = 0)%nat as -> by lia. intros b W R. exists b. split; [reflexivity|]. apply wrote_nil, W.
  - destruct (Nat.eqb_spec n 0) as [->|Hz].
    + intros b W R. exists b. split; [reflexivity|]. apply wrote_nil, W.
    + replace n with (Nat.min n 64 + (n - Nat.min n 64))%nat at 2 by lia. rewrite repeat_app.
      intros b W R. cbn [write_ones_loop]. destruct (Nat.eqb_spec n 0); [lia|].
      revert b W R.
      assert (shr u64mask (64 - Nat.min n 64) = N.ones (N.of_nat (Nat.min n 64))) as ->.
      { unfold shr, u64mask. change (2^64 - 1) with (N.ones 64).
        rewrite N.shiftr_div_pow2, N.ones_div_pow2 by lia. f_equal. lia. }
      change (writes (fun b => b0 <- write_bits (N.ones (N.of_nat (Nat.min n 64))) (Nat.min n 64) b;; write_ones_loop f (n - Nat.min n 64) b0) (repeat true (Nat.min n 64) ++ repeat true (n - Nat.min n 64))).
      apply writes_seq; [|apply IH; lia].
      rewrite <- bits_of_ones_n. apply writes_bits; [lia|].
      rewrite N.ones_equiv. pose proof (pow2_pos (N.of_nat (Nat.min n 64))). lia.
Qed.
Lemma write_ones_spec n : writes (write_ones n) (repeat true n).
Proof. apply write_ones_loop_spec. lia. Qed.

(** ** Copying and converting *)

Lemma copy_bits_loop_spec fuel n src b :
  (n <= fuel)%nat -> wf src -> wf b -> (n <= length (remaining src))%nat -> room b n ->
  exists b', copy_bits_loop fuel n b src = Ok (b', adv src n) /\ wrote b b' (firstn n (remaining src)).
Proof.
  revert n src b. induction fuel as [|f IH]; intros n src b Hn Ws Wb Hlen R.
  - assert (n = 0)%nat as -> by lia. exists b. cbn. rewrite adv_0. split; [reflexivity|]. apply wrote_nil, Wb.
  - cbn [copy_bits_loop]. destruct (Nat.eqb_spec n 0) as [->|Hz].
    + exists b. cbn. rewrite adv_0. split; [reflexivity|]. apply wrote_nil, Wb.
    + set (k := Nat.min n 64).
      unfold get_len_remaining, sub_checked. rewrite remaining_length in Hlen.
      destruct (Nat.leb_spec (bpos src) (bend src)) as [Hle|]; [|destruct Ws as (? & ? & ?); lia]. cbn [bind].
      destruct (Nat.leb_spec k (bend src - bpos src)); [|lia]. cbn [assert bind].
      rewrite read_bits_opt_spec by (assumption || lia). rewrite remaining_length.
      destruct (Nat.leb_spec k (bend src - bpos src)); [|lia]. cbn [bind unwrap].
      assert (length (firstn k (remaining src)) = k) as HL by (rewrite firstn_length, remaining_length; lia).
      destruct (write_bits_spec b (bits_val (firstn k (remaining src))) k) as (b1 & E1 & O1 & _).
      * assumption.
      * lia.
      * rewrite <- HL at 2. apply bits_val_bound.
      * eapply room_mono; [exact R|lia].
      * rewrite E1. cbn [bind]. rewrite (bits_of_val' _ _ HL) in O1.
        destruct (IH (n - k)%nat (adv src k) b1) as (b2 & E2 & O2).
        -- lia.
        -- apply wf_adv; [assumption|rewrite remaining_length; lia].
        -- apply O1.
        -- rewrite remaining_adv, skipn_length, remaining_length by assumption. lia.
        -- eapply room_after; [exact O1|]. rewrite HL. replace (k + (n - k))%nat with n by lia. exact R.
        -- exists b2. rewrite E2. rewrite adv_adv. replace (k + (n - k))%nat with n by lia. split; [reflexivity|].
           rewrite remaining_adv in O2 by assumption.
           replace (firstn n (remaining src)) with (firstn k (remaining src) ++ firstn (n - k) (skipn k (remaining src))).
           ++ eapply wrote_trans; eauto.
           ++ rewrite <- (firstn_skipn k (remaining src)) at 3. rewrite firstn_app, HL.
              rewrite firstn_firstn. replace (Nat.min n k) with k by lia. reflexivity.
Qed.

Lemma copy_bits_spec n src b :
  wf src -> wf b -> (n <= length (remaining src))%nat -> room b n ->
  exists b', copy_bits n src b = Ok (b', adv src n) /\ wrote b b' (firstn n (remaining src)).
Proof. intros. apply copy_bits_loop_spec; auto. Qed.

Lemma write_bools_spec l : writes (write_bools l) l.
Proof.
  induction l as [|x t IH]; intros b W R.
  - exists b. split; [reflexivity|]. apply wrote_nil, W.
  - cbn [write_bools]. revert b W R.
    change (writes (fun b => b <- write_bit (N.b2n x) b ;; write_bools t b) ([x] ++ t)).
    apply writes_seq; [apply writes_bit|exact IH].
Qed.

Lemma wf_new n : wf (bb_new n).
Proof.
  unfold wf, bb_new, cap; cbn [bytes bstart bpos bend]. rewrite repeat_length. repeat split; try lia.
  apply Forall_forall. intros x Hx. apply repeat_spec in Hx. subst. unfold isbyte. lia.
Qed.
Lemma wf_new_autoexpand n : wf (bb_new_autoexpand n).
Proof.
  unfold wf, bb_new_autoexpand, cap; cbn [bytes bstart bpos bend]. rewrite repeat_length. repeat split; try lia.
  apply Forall_forall. intros x Hx. apply repeat_spec in Hx. subst. unfold isbyte. lia.
Qed.
Lemma wf_from_vec l : Forall isbyte l -> wf (bb_from_vec l).
Proof. intros H. unfold wf, bb_from_vec, cap; cbn [bytes bstart bpos bend]. repeat split; try lia. assumption. Qed.

Lemma from_bitstr_spec s :
  exists b, bb_from_bitstr s = Ok b /\ wf b /\ bpos b = bstart b /\ autoexp b = false /\ window b = s.
Proof.
  unfold bb_from_bitstr.
  destruct (write_bools_spec s (bb_new (length s))) as (b & E & O); [apply wf_new|right; cbn; lia|].
  rewrite E. cbn [bind]. eexists. split; [reflexivity|].
  pose proof O as (W1 & S1 & A1 & P1 & L1 & B1 & E1 & F1 & T1).
  cbn in P1, S1, A1, E1. destruct F1 as [F1 _]; [cbn; lia|]. cbn in F1.
  destruct W1 as (? & ? & ? & ?). unfold cap in *.
  split. { unfold wf, set_pos, cap; cbn [bytes bstart bpos bend]. repeat split; try lia. assumption. }
  split; [reflexivity|]. split; [assumption|].
  unfold window, set_pos; cbn [bytes bstart bpos bend]. rewrite S1, F1, Nat.sub_0_r.
  exact (wrote_bits _ _ _ O).
Qed.

Lemma mapM_ok {A B} (f : A -> res B) (g : A -> B) l :
  (forall a, In a l -> f a = Ok (g a)) -> mapM f l = Ok (map g l).
Proof.
  induction l as [|a t IH]; intros H; [reflexivity|]. cbn [mapM map].
  rewrite H by (left; reflexivity). cbn [bind]. rewrite IH by (intros; apply H; right; assumption). reflexivity.
Qed.

Lemma to_bitstr_spec b : wf b -> to_bitstr b = Ok (window b).
Proof.
  intros (H1 & H2 & H3 & H4). unfold to_bitstr, get_len, sub_checked, cap in *.
  destruct (Nat.leb_spec (bstart b) (bend b)); [|lia]. cbn [bind].
  rewrite mapM_ok with (g := fun i => bit_at (bytes b) (bstart b + i)).
  - f_equal. unfold window, bits_rng. rewrite <- (map_map (fun i => (bstart b + i)%nat) (bit_at (bytes b))).
    f_equal. clear. generalize (bstart b) (bend b - bstart b)%nat. intros s n.
    assert (forall k, map (fun i => s + i)%nat (seq k n) = seq (s + k) n) as H.
    { induction n as [|n IH]; intros k; [reflexivity|]. cbn [seq map]. rewrite IH. f_equal. f_equal. lia. }
    rewrite H. f_equal. lia.
  - intros i Hi. apply in_seq in Hi. rewrite read_bit_unchecked_spec by lia. cbn [bind].
    destruct (bit_at _ _); reflexivity.
Qed.

Lemma spread_spec v n : spread v n = map N.b2n (bits_of n v).
Proof.
  unfold spread.
  rewrite <- (map_seq_bits_of (fun i => N.testbit v (N.of_nat (n - 1 - i))) 0 n v) by (intros i Hi; f_equal; f_equal; lia).
  rewrite map_map. apply map_ext. intros i.
  change 1 with (N.ones 1). rewrite N.land_ones. change (2^1) with 2. rewrite <- N.bit0_mod.
  change 0 with (N.of_nat 0) at 1. rewrite tb_shr. reflexivity.
Qed.

Lemma to_bitarr_loop_spec fuel n b :
  (n <= fuel)%nat -> wf b -> (n <= length (remaining b))%nat ->
  to_bitarr_loop fuel n b = Ok (map N.b2n (firstn n (remaining b)), adv b n).
Proof.
  revert n b. induction fuel as [|f IH]; intros n b Hn W Hlen.
  - assert (n = 0)%nat as -> by lia. cbn. now rewrite adv_0.
  - cbn [to_bitarr_loop]. destruct (Nat.eqb_spec n 0) as [->|Hz]; [cbn; now rewrite adv_0|].
    set (k := Nat.min n 64). rewrite read_bits_opt_spec by (assumption || lia).
    destruct (Nat.leb_spec k (length (remaining b))); [|lia]. cbn [bind unwrap].
    assert (length (firstn k (remaining b)) = k) as HL by (rewrite firstn_length; lia).
    rewrite IH.
    + cbn [bind]. rewrite spread_spec, (bits_of_val' _ _ HL). rewrite adv_adv.
      rewrite remaining_adv by assumption. rewrite <- map_app. do 3 f_equal; [|f_equal; lia].
      rewrite <- (firstn_skipn k (remaining b)) at 3. rewrite firstn_app, HL, firstn_firstn.
      replace (Nat.min n k) with k by lia. reflexivity.
    + lia.
    + apply wf_adv; [assumption|lia].
    + rewrite remaining_adv, skipn_length by assumption. lia.
Qed.
Lemma to_bitarr_spec n b :
  wf b -> (n <= length (remaining b))%nat -> to_bitarr n b = Ok (map N.b2n (firstn n (remaining b)), adv b n).
Proof. intros. apply to_bitarr_loop_spec; auto. Qed.

Lemma copy_from_bitarr_spec s : writes (copy_bits_from_bitarr (map N.b2n s)) s.
Proof.
  induction s as [|x t IH]; intros b W R.
  - exists b. split; [reflexivity|]. apply wrote_nil, W.
  - cbn [map copy_bits_from_bitarr].
    assert ((N.b2n x =? 0) || (N.b2n x =? 1) = true) as -> by (destruct x; reflexivity). cbn [assert bind].
    revert b W R. change (writes (fun b => b <- write_bit (N.b2n x) b ;; copy_bits_from_bitarr (map N.b2n t) b) ([x] ++ t)).
    apply writes_seq; [apply writes_bit|exact IH].
Qed.

Lemma from_bitarr_spec s :
  exists b, bb_from_bitarr (map N.b2n s) = Ok b /\ wf b /\ bpos b = bstart b /\ autoexp b = false /\ window b = s.
Proof.
  unfold bb_from_bitarr. rewrite map_length.
  destruct (copy_from_bitarr_spec s (bb_new (length s))) as (b & E & O); [apply wf_new|right; cbn; lia|].
  rewrite E. cbn [bind]. eexists. split; [reflexivity|].
  pose proof O as (W1 & S1 & A1 & P1 & L1 & B1 & E1 & F1 & T1).
  cbn in P1, S1, A1, E1. destruct F1 as [F1 _]; [cbn; lia|]. cbn in F1.
  destruct W1 as (? & ? & ? & ?). unfold cap in *.
  split. { unfold wf, set_pos, cap; cbn [bytes bstart bpos bend]. repeat split; try lia. assumption. }
  split; [reflexivity|]. split; [assumption|].
  unfold window, set_pos; cbn [bytes bstart bpos bend]. rewrite S1, F1, Nat.sub_0_r.
  exact (wrote_bits _ _ _ O).
Qed.

Lemma nth_skipn' {A} (l : list A) k i d : nth i (skipn k l) d = nth (k + i) l d.
Proof.
  revert l. induction k as [|k IH]; intros l; [reflexivity|].
  destruct l as [|x l]; cbn [skipn Nat.add nth]; [destruct i; reflexivity|apply IH].
Qed.
Lemma nth_firstn' {A} (l : list A) k i d : (i < k)%nat -> nth i (firstn k l) d = nth i l d.
Proof.
  revert l i. induction k as [|k IH]; intros l i H; [lia|].
  destruct l as [|x l]; cbn [firstn nth]; [reflexivity|]. destruct i; [reflexivity|]. apply IH. lia.
Qed.
Lemma bit_at_skipn l k i : bit_at (skipn k l) i = bit_at l (8 * k + i).
Proof. unfold bit_at. rewrite nth_skipn'. f_equal; [f_equal; lia|f_equal; lia]. Qed.
Lemma bit_at_firstn l k i : (i < 8 * k)%nat -> bit_at (firstn k l) i = bit_at l i.
Proof. intros H. unfold bit_at. rewrite nth_firstn' by lia. reflexivity. Qed.

Lemma bits_rng_slice l i k p n :
  (p + n <= 8 * k)%nat -> bits_rng (firstn k (skipn i l)) p n = bits_rng l (8 * i + p) n.
Proof.
  intros H. unfold bits_rng.
  replace (8 * i + p)%nat with (p + 8 * i)%nat by lia.
  assert (seq (p + 8 * i) n = map (fun j => (8 * i + j)%nat) (seq p n)) as ->.
  { clear H. revert p. induction n as [|n IH]; intros p; [reflexivity|]. cbn [seq map]. f_equal; [lia|]. rewrite <- IH. f_equal. }
  rewrite map_map. apply map_ext_in. intros j Hj. apply in_seq in Hj.
  rewrite bit_at_firstn by lia. apply bit_at_skipn.
Qed.

Lemma from_bitbuffer_spec b :
  wf b -> exists b', bb_from_bitbuffer b = Ok b' /\ wf b' /\ bpos b' = bstart b' /\ autoexp b' = false /\ window b' = window b.
Proof.
  intros (H1 & H2 & H3 & H4). unfold bb_from_bitbuffer, slice_checked, get_len, sub_checked, cap in *.
  destruct ((bstart b / 8 <=? (bend b + 7) / 8) && ((bend b + 7) / 8 <=? length (bytes b)))%nat eqn:E; [|lia].
  cbn [bind]. destruct (Nat.leb_spec (bstart b) (bend b)); [|lia]. cbn [bind].
  eexists. split; [reflexivity|].
  split; [|split; [reflexivity|]; split; [reflexivity|]].
  - unfold wf, cap; cbn [bytes bstart bpos bend]. rewrite firstn_length, skipn_length.
    repeat split; try lia. apply Forall_forall. intros x Hx. rewrite Forall_forall in H4. apply H4.
    rewrite <- (firstn_skipn (bstart b / 8) (bytes b)). apply in_or_app. right.
    rewrite <- (firstn_skipn ((bend b + 7) / 8 - bstart b / 8) (skipn (bstart b / 8) (bytes b))).
    apply in_or_app. left. exact Hx.
  - unfold window; cbn [bytes bstart bpos bend]. rewrite bits_rng_slice by lia. f_equal; lia.
Qed.

Lemma from_bitbuffer_pos_spec b :
  wf b -> exists b', bb_from_bitbuffer_pos b = Ok b' /\ wf b' /\ bpos b' = bstart b' /\ autoexp b' = false /\ window b' = remaining b.
Proof.
  intros (H1 & H2 & H3 & H4). unfold bb_from_bitbuffer_pos, slice_checked, get_len_remaining, sub_checked, cap in *.
  destruct ((bpos b / 8 <=? (bend b + 7) / 8) && ((bend b + 7) / 8 <=? length (bytes b)))%nat eqn:E; [|lia].
  cbn [bind]. destruct (Nat.leb_spec (bpos b) (bend b)); [|lia]. cbn [bind].
  eexists. split; [reflexivity|].
  split; [|split; [reflexivity|]; split; [reflexivity|]].
  - unfold wf, cap; cbn [bytes bstart bpos bend]. rewrite firstn_length, skipn_length.
    repeat split; try lia. apply Forall_forall. intros x Hx. rewrite Forall_forall in H4. apply H4.
    rewrite <- (firstn_skipn (bpos b / 8) (bytes b)). apply in_or_app. right.
    rewrite <- (firstn_skipn ((bend b + 7) / 8 - bpos b / 8) (skipn (bpos b / 8) (bytes b))).
    apply in_or_app. left. exact Hx.
  - unfold window, remaining; cbn [bytes bstart bpos bend]. rewrite bits_rng_slice by lia. f_equal; lia.
Qed.

Lemma into_bitvec_spec0 b : wf b -> into_bitvec b = Ok (map N.b2n (bits_rng (bytes b) 0 (bend b - bstart b))).
Proof.
  intros (H1 & H2 & H3 & H4). unfold into_bitvec, get_len, sub_checked, cap in *.
  destruct (Nat.leb_spec (bstart b) (bend b)); [|lia]. cbn [bind].
  unfold bits_rng. rewrite map_map. apply mapM_ok. intros i Hi. apply in_seq in Hi.
  apply read_bit_unchecked_spec. lia.
Qed.

(** Bytes as bits: [from_vec] and [into_bytes]. *)
Lemma from_vec_window l : window (bb_from_vec l) = bits_rng l 0 (8 * length l).
Proof. unfold window, bb_from_vec; cbn [bytes bstart bend]. f_equal. lia. Qed.

(** ** Arbitrary histories refine an abstract bit store *)

(** Abstract store: an infinite zero-extended tape with a capacity, a window and a cursor. *)
Record tape := mktape { tget : nat -> bool; tcap : nat; tstart : nat; tpos : nat; tend : nat; tauto : bool }.

Inductive bop : Type :=
| ORead (n : nat) | OPeekStart (off n : nat) | OPeekPos (off n : nat)
| OWriteBits (v : N) (n : nat) | OWriteBit (v : N)
| OSeek (off : nat) | OSeekRel (off : Z)
| OSetStart (s : nat) | OSetEnd (e : nat) | OSetPos (p : nat)
| OGetLen | OGetRemaining | OGetPos.

Inductive bout : Type := RUnit | RVal (v : option N) | RNat (n : nat).

(** One operation on the byte-level model. *)
Definition bstep (b : bitbuf) (o : bop) : res (bitbuf * bout) :=
  match o with
  | ORead n => '(v, b) <- read_bits_opt b n ;; Ok (b, RVal v)
  | OPeekStart off n => v <- peek_bits_startoffset b off n ;; Ok (b, RVal v)
  | OPeekPos off n => v <- peek_bits_posoffset b off n ;; Ok (b, RVal v)
  | OWriteBits v n => b <- write_bits v n b ;; Ok (b, RUnit)
  | OWriteBit v => b <- write_bit v b ;; Ok (b, RUnit)
  | OSeek off => b <- seek off b ;; Ok (b, RUnit)
  | OSeekRel off => b <- seek_rel off b ;; Ok (b, RUnit)
  | OSetStart s => b <- set_raw_start s b ;; Ok (b, RUnit)
  | OSetEnd e => b <- set_raw_end e b ;; Ok (b, RUnit)
  | OSetPos p => b <- set_raw_pos p b ;; Ok (b, RUnit)
  | OGetLen => n <- get_len b ;; Ok (b, RNat n)
  | OGetRemaining => n <- get_len_remaining b ;; Ok (b, RNat n)
  | OGetPos => n <- get_pos b ;; Ok (b, RNat n)
  end.

(** The specification of one operation: what a user of the API expects.
    Reading beyond the window gives [None] and changes nothing; writing beyond it
    panics, or extends the window when the buffer auto-expands (by the width of the
    write, capacity at least doubling when exhausted). *)
Definition tread (t : tape) (abs n : nat) : option N :=
  if ((n <=? 64) && (abs + n <=? tend t))%nat then Some (bits_val (map (tget t) (seq abs n))) else None.

Definition twrite (t : tape) (v : N) (n : nat) : res tape :=
  let put c e := mktape (fun i => if ((tpos t <=? i) && (i <? tpos t + n))%nat then N.testbit v (N.of_nat (tpos t + n - 1 - i)) else tget t i)
                        c (tstart t) (tpos t + n) e (tauto t) in
  if ((n <=? 64)%nat && (v <? 2 ^ N.of_nat n))%bool then
    if (tpos t + n <=? tend t)%nat then Ok (put (tcap t) (tend t))
    else if tauto t then
      Ok (put (if (tend t + n <=? tcap t)%nat then tcap t else 8 * ((Nat.max (tend t + n) (2 * tcap t) + 7) / 8))%nat (tend t + n)%nat)
    else Panic
  else Panic.

Definition tmove (t : tape) (p : nat) := mktape (tget t) (tcap t) (tstart t) p (tend t) (tauto t).

Definition tstep (t : tape) (o : bop) : res (tape * bout) :=
  match o with
  | ORead n => match tread t (tpos t) n with
               | Some v => Ok (tmove t (tpos t + n), RVal (Some v)) | None => Ok (t, RVal None) end
  | OPeekStart off n => Ok (t, RVal (tread t (tstart t + off) n))
  | OPeekPos off n => Ok (t, RVal (tread t (tpos t + off) n))
  | OWriteBits v n => t <- twrite t v n ;; Ok (t, RUnit)
  | OWriteBit v => t <- twrite t v 1 ;; Ok (t, RUnit)
  | OSeek off => if (tstart t + off <=? tend t)%nat then Ok (tmove t (tstart t + off), RUnit) else Panic
  | OSeekRel off =>
      let p := (Z.of_nat (tpos t) + off)%Z in
      if ((Z.of_nat (tstart t) <=? p) && (p <=? Z.of_nat (tend t)))%Z then Ok (tmove t (Z.to_nat p), RUnit) else Panic
  | OSetStart s => if ((s <=? tend t) && (s <=? tpos t))%nat then Ok (mktape (tget t) (tcap t) s (tpos t) (tend t) (tauto t), RUnit) else Panic
  | OSetEnd e => if ((e <=? tcap t) && (tstart t <=? e) && (tpos t <=? e))%nat then Ok (mktape (tget t) (tcap t) (tstart t) (tpos t) e (tauto t), RUnit) else Panic
  | OSetPos p => if ((tstart t <=? p) && (p <=? tend t))%nat then Ok (tmove t p, RUnit) else Panic
  | OGetLen => Ok (t, RNat (tend t - tstart t))
  | OGetRemaining => Ok (t, RNat (tend t - tpos t))
  | OGetPos => Ok (t, RNat (tpos t - tstart t))
  end.

Definition represents (b : bitbuf) (t : tape) : Prop :=
  wf b /\ tcap t = cap b /\ tstart t = bstart b /\ tpos t = bpos b /\ tend t = bend b /\ tauto t = autoexp b /\
  forall i, tget t i = bit_at (bytes b) i.

(** Run a whole history; a panic ends it. *)
Fixpoint brun (b : bitbuf) (os : list bop) : res (bitbuf * list bout) :=
  match os with
  | [] => Ok (b, [])
  | o :: os => '(b, r) <- bstep b o ;; '(b, rs) <- brun b os ;; Ok (b, r :: rs)
  end.
Fixpoint trun (t : tape) (os : list bop) : res (tape * list bout) :=
  match os with
  | [] => Ok (t, [])
  | o :: os => '(t, r) <- tstep t o ;; '(t, rs) <- trun t os ;; Ok (t, r :: rs)
  end.

Definition same_outcome {A} (x : res (bitbuf * A)) (y : res (tape * A)) : Prop :=
  match x, y with
  | Ok (b, r), Ok (t, r') => represents b t /\ r = r'
  | Panic, Panic => True
  | _, _ => False
  end.

Lemma tread_spec b t abs n :
  represents b t ->
  peek_bits_startoffset b (abs - bstart b) n = Ok (tread t (bstart b + (abs - bstart b)) n).
Proof.
  intros (W & Hc & Hs & Hp & He & Ha & Hg). unfold tread.
  destruct (Nat.leb_spec n 64); cbn [andb].
  - rewrite peek_startoffset_spec by assumption. rewrite He.
    destruct (_ <=? bend b)%nat; [|reflexivity]. do 3 f_equal.
    unfold bits_rng. apply map_ext. intros i. now rewrite Hg.
  - unfold peek_bits_startoffset. destruct (Nat.ltb_spec 64 n); [reflexivity|lia].
Qed.

Lemma cap_realloc b n b1 :
  wf b -> (bend b < bpos b + n)%nat -> move_end b n = Ok b1 ->
  cap b1 = if (bend b + n <=? cap b)%nat then cap b else (8 * ((Nat.max (bend b + n) (2 * cap b) + 7) / 8))%nat.
Proof.
  intros (W1 & W2 & W3 & W4) H. unfold move_end, sub_checked, realloc_tail.
  destruct (Nat.leb_spec (bend b) (cap b)); [|lia]. cbn [bind].
  destruct (Nat.ltb_spec (cap b - bend b) n) as [H1|H1].
  - destruct (Nat.leb_spec (bend b + n) (cap b)); [lia|].
    destruct (Nat.leb_spec (length (bytes b)) ((Nat.max (bend b + n) (cap b * 2) + 7) / 8)); cbn [assert bind]; [|discriminate].
    intros E. inversion E; subst b1. unfold cap in *. cbn [set_end set_bytes bytes]. rewrite app_length, repeat_length.
    lia.
  - destruct (Nat.leb_spec (bend b + n) (cap b)); [|lia]. cbn [bind]. intros E. inversion E. reflexivity.
Qed.

Lemma write_bits_cap b v n b' :
  wf b -> (n <= 64)%nat -> v < 2 ^ N.of_nat n -> room b n -> write_bits v n b = Ok b' ->
  cap b' = if (bpos b + n <=? bend b)%nat then cap b
           else if (bend b + n <=? cap b)%nat then cap b else (8 * ((Nat.max (bend b + n) (2 * cap b) + 7) / 8))%nat.
Proof.
  intros W Hn Hv R E.
  destruct (write_bits_spec b v n W Hn Hv R) as (b0 & E0 & O & _). rewrite E in E0. inversion E0; subst b0. clear E0.
  destruct O as (_ & _ & _ & _ & _ & _ & _ & F & _). rewrite bits_of_length in F.
  destruct (Nat.leb_spec (bpos b + n) (bend b)) as [Hfit|Hfit].
  - destruct (F Hfit) as [_ F2]. unfold cap. lia.
  - (* the byte vector keeps its length after the expansion *)
    revert E. unfold write_bits.
    assert ((n <=? 64)%nat = true) as -> by lia. cbn [assert bind].
    assert (((n =? 64)%nat || (shr v n =? 0)) = true) as ->.
    { apply Bool.orb_true_iff. right. apply N.eqb_eq. unfold shr. rewrite N.shiftr_div_pow2. apply N.div_small, Hv. }
    cbn [assert bind].
    destruct (Nat.ltb_spec (bend b) (bpos b + n)); [|lia].
    assert (autoexp b = true) as -> by (destruct R; [assumption|lia]).
    destruct (move_end_spec b n W) as (b1 & E1 & W1 & _). rewrite E1. cbn [bind].
    rewrite <- (cap_realloc b n b1 W H E1).
    assert (forall l i x l', byte_set l i x = Ok l' -> length l' = length l) as HB.
    { intros l i x l'. unfold byte_set. destruct (_ <? _)%nat; [|discriminate]. intros E. inversion E. apply upd_length. }
    assert (forall k l vv cur r l', wr_full l vv k cur r = Ok l' -> length l' = length l) as HF.
    { induction k as [|k IH]; intros l vv cur r l'; cbn [wr_full]; [intros E; inversion E; reflexivity|].
      intros E. apply bind_ok in E as (l1 & E2 & E3). apply IH in E3. apply HB in E2. congruence. }
    intros E. apply bind_ok in E as ([[l1 c1] r1] & E2 & E).
    apply bind_ok in E as (l2 & E3 & E). apply bind_ok in E as (l3 & E4 & E). inversion E; subst b'. clear E.
    unfold cap. cbn [set_pos set_bytes bytes].
    assert (length l1 = length (bytes b1)) as L1.
    { case_if_in E2; [|congruence].
      apply bind_ok in E2 as (y & _ & E2). apply bind_ok in E2 as (l0 & E5 & E2). assert (l1 = l0) as -> by congruence. eapply HB, E5. }
    apply HF in E3.
    assert (length l3 = length l2) as L3.
    { case_if_in E4; [|congruence]. apply bind_ok in E4 as (y & _ & E4). eapply HB, E4. }
    congruence.
Qed.

Lemma write_bit_cap b x b' :
  wf b -> room b 1 -> write_bit (N.b2n x) b = Ok b' ->
  cap b' = if (bpos b + 1 <=? bend b)%nat then cap b
           else if (bend b + 1 <=? cap b)%nat then cap b else (8 * ((Nat.max (bend b + 1) (2 * cap b) + 7) / 8))%nat.
Proof.
  intros W R. unfold write_bit.
  assert ((N.b2n x =? 0) || (N.b2n x =? 1) = true) as -> by (destruct x; reflexivity). cbn [assert bind].
  assert (forall l i x l', byte_set l i x = Ok l' -> length l' = length l) as HB.
  { intros l i y l'. unfold byte_set. destruct (_ <? _)%nat; [|discriminate]. intros E. inversion E. apply upd_length. }
  destruct (Nat.ltb_spec (bend b) (bpos b + 1)).
  - destruct (Nat.leb_spec (bpos b + 1) (bend b)); [lia|].
    assert (autoexp b = true) as -> by (destruct R; [assumption|lia]).
    destruct (move_end_spec b 1 W) as (b1 & E1 & W1 & _). rewrite E1. cbn [bind].
    rewrite <- (cap_realloc b 1 b1 W H E1).
    intros E. apply bind_ok in E as (y & _ & E). apply bind_ok in E as (l & E2 & E). inversion E; subst b'.
    unfold cap. cbn [set_pos set_bytes bytes]. now rewrite (HB _ _ _ _ E2).
  - destruct (Nat.leb_spec (bpos b + 1) (bend b)); [|lia]. cbn [bind].
    intros E. apply bind_ok in E as (y & _ & E). apply bind_ok in E as (l & E2 & E). inversion E; subst b'.
    unfold cap. cbn [set_pos set_bytes bytes]. now rewrite (HB _ _ _ _ E2).
Qed.

Lemma twrite_refines b t v n :
  v < 2 ^ 64 -> represents b t ->
  same_outcome (b <- write_bits v n b ;; Ok (b, RUnit)) (t <- twrite t v n ;; Ok (t, RUnit)).
Proof.
  intros Hv64 R. pose proof R as (W & Hc & Hs & Hp & He & Ha & Hg). unfold twrite.
  destruct ((n <=? 64)%nat && (v <? 2 ^ N.of_nat n))%bool eqn:E.
  - assert (n <= 64)%nat as Hn by lia. assert (v < 2 ^ N.of_nat n) as Hv by lia. clear E.
    assert (room b n -> exists b', write_bits v n b = Ok b' /\ wrote b b' (bits_of n v) /\
      bend b' = (if (bpos b + n <=? bend b)%nat then bend b else bend b + n)%nat /\
      cap b' = if (bpos b + n <=? bend b)%nat then cap b
           else if (bend b + n <=? cap b)%nat then cap b else (8 * ((Nat.max (bend b + n) (2 * cap b) + 7) / 8))%nat) as HW.
    { intros RM. destruct (write_bits_spec b v n W Hn Hv RM) as (b' & E & O & En). exists b'.
      split; [assumption|]. split; [assumption|]. split; [assumption|]. eapply write_bits_cap; eassumption. }
    rewrite Hp, He.
    destruct (Nat.leb_spec (bpos b + n) (bend b)) as [Hfit|Hfit].
    + destruct HW as (b' & -> & O & En & Cn); [right; lia|]. cbn [bind same_outcome]. split; [|reflexivity].
      destruct O as (W' & S' & A' & P' & L' & B' & _). rewrite bits_of_length in *.
      unfold represents; cbn [tcap tstart tpos tend tauto tget]. repeat (split; [first [assumption|lia|congruence]|]).
      intros i. rewrite B'. destruct ((bpos b <=? i) && (i <? bpos b + n))%nat eqn:E.
      * rewrite nth_bits_of by lia. f_equal. f_equal. lia.
      * apply Hg.
    + rewrite Ha. destruct (autoexp b) eqn:EA.
      * destruct HW as (b' & -> & O & En & Cn); [left; assumption|]. cbn [bind same_outcome]. split; [|reflexivity].
        destruct O as (W' & S' & A' & P' & L' & B' & _). rewrite bits_of_length in *.
        unfold represents; cbn [tcap tstart tpos tend tauto tget]. rewrite Hc.
        repeat (split; [first [assumption|lia|congruence]|]).
        intros i. rewrite B'. destruct ((bpos b <=? i) && (i <? bpos b + n))%nat eqn:E.
        -- rewrite nth_bits_of by lia. f_equal. f_equal. lia.
        -- apply Hg.
      * unfold write_bits.
        assert ((n <=? 64)%nat = true) as -> by lia. cbn [assert bind].
        destruct ((n =? 64)%nat || (shr v n =? 0)); cbn [assert bind]; [|exact I].
        destruct (Nat.ltb_spec (bend b) (bpos b + n)); [|lia]. rewrite EA. exact I.
  - unfold write_bits. destruct (Nat.leb_spec n 64); cbn [assert bind andb] in *; [|exact I].
    destruct ((n =? 64)%nat || (shr v n =? 0)) eqn:E2; cbn [assert bind]; [|exact I].
    exfalso. apply N.ltb_ge in E. apply Bool.orb_true_iff in E2 as [E2|E2].
    + apply Nat.eqb_eq in E2. subst n. change (2 ^ N.of_nat 64) with (2 ^ 64) in E. lia.
    + apply N.eqb_eq in E2. unfold shr in E2. rewrite N.shiftr_div_pow2 in E2. apply N.div_small_iff in E2; [lia|]. apply N.pow_nonzero. lia.
Qed.

Lemma twrite1_refines b t v :
  represents b t ->
  same_outcome (b <- write_bit v b ;; Ok (b, RUnit)) (t <- twrite t v 1 ;; Ok (t, RUnit)).
Proof.
  intros R. pose proof R as (W & Hc & Hs & Hp & He & Ha & Hg). unfold twrite.
  change (2 ^ N.of_nat 1) with 2. change (1 <=? 64)%nat with true. cbn [andb].
  destruct (N.ltb_spec v 2) as [Hv|Hv].
  - assert (exists x, v = N.b2n x) as (x & ->).
    { exists (v =? 1). destruct (N.eqb_spec v 1); cbn; lia. }
    assert (room b 1 -> exists b', write_bit (N.b2n x) b = Ok b' /\ wrote b b' [x] /\
      bend b' = (if (bpos b + 1 <=? bend b)%nat then bend b else bend b + 1)%nat /\
      cap b' = if (bpos b + 1 <=? bend b)%nat then cap b
           else if (bend b + 1 <=? cap b)%nat then cap b else (8 * ((Nat.max (bend b + 1) (2 * cap b) + 7) / 8))%nat) as HW.
    { intros RM. destruct (write_bit_spec b x W RM) as (b' & E & O & En). exists b'.
      split; [assumption|]. split; [assumption|]. split; [assumption|]. eapply write_bit_cap; eassumption. }
    rewrite Hp, He.
    destruct (Nat.leb_spec (bpos b + 1) (bend b)) as [Hfit|Hfit].
    + destruct HW as (b' & -> & O & En & Cn); [right; lia|]. cbn [bind same_outcome]. split; [|reflexivity].
      destruct O as (W' & S' & A' & P' & L' & B' & _). cbn [length] in *.
      unfold represents; cbn [tcap tstart tpos tend tauto tget]. repeat (split; [first [assumption|lia|congruence]|]).
      intros i. rewrite B'. destruct ((bpos b <=? i) && (i <? bpos b + 1))%nat eqn:E.
      * replace (i - bpos b)%nat with 0%nat by lia. replace (bpos b + 1 - 1 - i)%nat with 0%nat by lia. cbn. destruct x; reflexivity.
      * apply Hg.
    + rewrite Ha. destruct (autoexp b) eqn:EA.
      * destruct HW as (b' & -> & O & En & Cn); [left; assumption|]. cbn [bind same_outcome]. split; [|reflexivity].
        destruct O as (W' & S' & A' & P' & L' & B' & _). cbn [length] in *.
        unfold represents; cbn [tcap tstart tpos tend tauto tget]. rewrite Hc.
        repeat (split; [first [assumption|lia|congruence]|]).
        intros i. rewrite B'. destruct ((bpos b <=? i) && (i <? bpos b + 1))%nat eqn:E.
        -- replace (i - bpos b)%nat with 0%nat by lia. replace (bpos b + 1 - 1 - i)%nat with 0%nat by lia. cbn. destruct x; reflexivity.
        -- apply Hg.
      * unfold write_bit.
        assert ((N.b2n x =? 0) || (N.b2n x =? 1) = true) as -> by (destruct x; reflexivity). cbn [assert bind].
        destruct (Nat.ltb_spec (bend b) (bpos b + 1)); [|lia]. rewrite EA. exact I.
  - unfold write_bit. assert ((v =? 0) || (v =? 1) = false) as -> by lia. exact I.
Qed.

(** Arguments are machine values: the written word is a u64 (resp. u8). *)
Definition op_ok (o : bop) : Prop := match o with OWriteBits v _ => v < 2 ^ 64 | _ => True end.

Lemma bstep_refines b t o : op_ok o -> represents b t -> same_outcome (bstep b o) (tstep t o).
Proof.
  intros Ho R. pose proof R as (W & Hc & Hs & Hp & He & Ha & Hg). pose proof W as (W1 & W2 & W3 & W4).
  destruct o as [n|off n|off n|v n|v|off|off|s|e|p| | |]; cbn [bstep tstep].
  - unfold read_bits_opt, sub_checked. destruct (Nat.leb_spec (bstart b) (bpos b)); [|lia]. cbn [bind].
    rewrite (tread_spec b t (bpos b) n R). cbn [bind].
    replace (bstart b + (bpos b - bstart b))%nat with (tpos t) by lia.
    destruct (tread t (tpos t) n) as [v|] eqn:E; cbn [bind same_outcome].
    + split; [|reflexivity]. unfold tread in E.
      destruct ((n <=? 64) && (tpos t + n <=? tend t))%nat eqn:E2; [|discriminate].
      unfold represents, wf, cap, set_pos, tmove in *; cbn [bytes bstart bpos bend autoexp tcap tstart tpos tend tauto tget].
      rewrite Hp in *. repeat split; try lia; try assumption.
    + split; [exact R|reflexivity].
  - replace off with (bstart b + off - bstart b)%nat at 1 by lia. rewrite (tread_spec b t (bstart b + off) n R). cbn [bind same_outcome].
    split; [exact R|]. do 2 f_equal. lia.
  - unfold peek_bits_posoffset, sub_checked. destruct (Nat.leb_spec (bstart b) (bpos b)); [|lia]. cbn [bind].
    replace (bpos b - bstart b + off)%nat with (bpos b + off - bstart b)%nat by lia.
    rewrite (tread_spec b t (bpos b + off) n R). cbn [bind same_outcome].
    split; [exact R|]. do 2 f_equal. lia.
  - apply twrite_refines; assumption.
  - apply twrite1_refines; assumption.
  - unfold seek. rewrite Hs, He. destruct (Nat.leb_spec (bstart b + off) (bend b)); cbn [assert bind same_outcome]; [|exact I].
    split; [|reflexivity]. unfold represents, wf, cap, set_pos, tmove in *; cbn [bytes bstart bpos bend autoexp tcap tstart tpos tend tauto tget].
    repeat split; try lia; try assumption.
  - unfold seek_rel. rewrite Hs, Hp, He.
    destruct ((Z.of_nat (bstart b) <=? Z.of_nat (bpos b) + off) && (Z.of_nat (bpos b) + off <=? Z.of_nat (bend b)))%Z eqn:E; cbn [assert bind same_outcome]; [|exact I].
    split; [|reflexivity]. unfold represents, wf, cap, set_pos, tmove in *; cbn [bytes bstart bpos bend autoexp tcap tstart tpos tend tauto tget].
    repeat split; try lia; try assumption.
  - unfold set_raw_start. rewrite He, Hp.
    destruct (Nat.leb_spec s (bend b)); cbn [assert bind andb same_outcome]; [|exact I].
    destruct (Nat.leb_spec s (bpos b)); cbn [assert bind andb same_outcome]; [|exact I].
    split; [|reflexivity]. unfold represents, wf, cap, set_start in *; cbn [bytes bstart bpos bend autoexp tcap tstart tpos tend tauto tget].
    repeat split; try lia; try assumption.
  - unfold set_raw_end. rewrite Hc, Hs, Hp.
    destruct (Nat.leb_spec e (cap b)); cbn [assert bind andb same_outcome]; [|exact I].
    destruct (Nat.leb_spec (bstart b) e); cbn [assert bind andb same_outcome]; [|exact I].
    destruct (Nat.leb_spec (bpos b) e); cbn [assert bind andb same_outcome]; [|exact I].
    split; [|reflexivity]. unfold represents, wf, cap, set_end in *; cbn [bytes bstart bpos bend autoexp tcap tstart tpos tend tauto tget].
    repeat split; try lia; try assumption.
  - unfold set_raw_pos. rewrite Hs, He.
    destruct (Nat.leb_spec (bstart b) p); cbn [assert bind andb same_outcome]; [|exact I].
    destruct (Nat.leb_spec p (bend b)); cbn [assert bind andb same_outcome]; [|exact I].
    split; [|reflexivity]. unfold represents, wf, cap, set_pos, tmove in *; cbn [bytes bstart bpos bend autoexp tcap tstart tpos tend tauto tget].
    repeat split; try lia; try assumption.
  - unfold get_len, sub_checked. destruct (Nat.leb_spec (bstart b) (bend b)); [|lia]. cbn. split; [exact R|]. now rewrite He, Hs.
  - unfold get_len_remaining, sub_checked. destruct (Nat.leb_spec (bpos b) (bend b)); [|lia]. cbn. split; [exact R|]. now rewrite He, Hp.
  - unfold get_pos, sub_checked. destruct (Nat.leb_spec (bstart b) (bpos b)); [|lia]. cbn. split; [exact R|]. now rewrite Hs, Hp.
Qed.

Lemma brun_refines os b t : Forall op_ok os -> represents b t -> same_outcome (brun b os) (trun t os).
Proof.
  intros Ho. revert b t. induction Ho as [|o os H1 H2 IH]; intros b t R; cbn [brun trun].
  - split; [exact R|reflexivity].
  - pose proof (bstep_refines b t o H1 R) as HS.
    destruct (bstep b o) as [[b1 r1]| |], (tstep t o) as [[t1 r1']| |]; cbn [same_outcome] in HS; try contradiction; cbn [bind]; [|exact I].
    destruct HS as [R1 ->]. specialize (IH b1 t1 R1).
    destruct (brun b1 os) as [[b2 r2]| |], (trun t1 os) as [[t2 r2']| |]; cbn [same_outcome] in IH; try contradiction; cbn [bind same_outcome]; [|exact I].
    destruct IH as [R2 ->]. split; [exact R2|reflexivity].
Qed.

Definition tape_of (b : bitbuf) : tape := mktape (bit_at (bytes b)) (cap b) (bstart b) (bpos b) (bend b) (autoexp b).
Lemma represents_tape_of b : wf b -> represents b (tape_of b).
Proof. intros W. unfold represents, tape_of; cbn. repeat split; try reflexivity; apply W. Qed.

(** [xor_bit] does not respect the end of the window: it flips a bit outside it. *)
Lemma xor_bit_spec b x :
  wf b -> (bpos b < cap b)%nat ->
  exists b', xor_bit b (N.b2n x) = Ok b' /\ bpos b' = (bpos b + 1)%nat /\ bstart b' = bstart b /\ bend b' = bend b /\ cap b' = cap b /\
    Forall isbyte (bytes b') /\
    forall i, bit_at (bytes b') i = if (i =? bpos b)%nat then xorb (bit_at (bytes b) i) x else bit_at (bytes b) i.
Proof.
  intros (W1 & W2 & W3 & W4) H. unfold xor_bit, cap in *. rewrite byte_at_ok by lia. cbn [bind]. rewrite byte_set_ok by lia. cbn [bind].
  eexists. split; [reflexivity|]. cbn [set_pos set_bytes bytes bstart bpos bend]. rewrite upd_length.
  repeat (split; [reflexivity|]). split.
  - apply Forall_upd; [assumption|]. apply isbyte_intro. intros k Hk.
    rewrite N.lxor_spec, (isbyte_testbit _ k (isbyte_nth _ _ W4) Hk), tb_shl8.
    destruct (Nat.ltb_spec k 8); [lia|]. now rewrite Bool.andb_false_r.
  - intros i. rewrite bit_at_upd by lia.
    destruct (Nat.eqb_spec i (bpos b)) as [->|Hne].
    + rewrite Nat.eqb_refl, N.lxor_spec, tb_shl8, Nat.leb_refl, Nat.sub_diag.
      destruct (Nat.ltb_spec (7 - bpos b mod 8) 8); [|lia]. rewrite Bool.andb_true_r. unfold bit_at. f_equal. destruct x; reflexivity.
    + destruct (Nat.eqb_spec (i / 8) (bpos b / 8)) as [E|E]; [|reflexivity].
      rewrite N.lxor_spec, tb_shl8. unfold bit_at. rewrite E.
      destruct (Nat.leb_spec (7 - bpos b mod 8) (7 - i mod 8)).
      * rewrite (testbit_high (N.b2n x) 1); [|destruct x; reflexivity|lia]. now rewrite Bool.xorb_false_r.
      * now rewrite Bool.xorb_false_r.
Qed.
