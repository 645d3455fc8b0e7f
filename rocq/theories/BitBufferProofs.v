(** Specification of [BitBuffer] on bit strings and proofs that the byte-level
    model meets it. *)
From Verif Require Import Base BitsLib BitBuffer.
Open Scope N_scope.

(** Bit [i] of a byte vector (bit 0 is the most significant bit of byte 0). *)
Definition bit_at (l : list N) (i : nat) : bool := N.testbit (nth (i / 8) l 0) (N.of_nat (7 - i mod 8)).
(** Bits [p, p+n). *)
Definition bits_rng (l : list N) (p n : nat) : list bool := map (bit_at l) (seq p n).

Definition isbyte (x : N) : Prop := x < 256.

(** Well-formed buffer: the invariant kept by all window operations. *)
Definition wf (b : bitbuf) : Prop :=
  (bstart b <= bpos b)%nat /\ (bpos b <= bend b)%nat /\ (bend b <= cap b)%nat /\ Forall isbyte (bytes b).

Lemma bits_rng_length l p n : length (bits_rng l p n) = n.
Proof. unfold bits_rng. now rewrite map_length, seq_length. Qed.

Lemma bits_rng_app l p n m : bits_rng l p (n + m) = bits_rng l p n ++ bits_rng l (p + n) m.
Proof. unfold bits_rng. now rewrite seq_app, map_app. Qed.

Lemma nth_bits_rng l p n i d : (i < n)%nat -> nth i (bits_rng l p n) d = bit_at l (p + i).
Proof.
  intros Hi. unfold bits_rng. rewrite nth_indep with (d' := bit_at l 0) by (rewrite map_length, seq_length; lia).
  rewrite map_nth, seq_nth by lia. reflexivity.
Qed.

Lemma bits_rng_ext l l' p n :
  (forall i, (p <= i < p + n)%nat -> bit_at l i = bit_at l' i) -> bits_rng l p n = bits_rng l' p n.
Proof. intros H. unfold bits_rng. apply map_ext_in. intros i Hi. apply in_seq in Hi. apply H. lia. Qed.

Lemma firstn_bits_rng l p n k : (k <= n)%nat -> firstn k (bits_rng l p n) = bits_rng l p k.
Proof. intros H. unfold bits_rng. rewrite firstn_map, firstn_seq'. do 2 f_equal. lia. Qed.
Lemma skipn_bits_rng l p n k : skipn k (bits_rng l p n) = bits_rng l (p + k) (n - k).
Proof. unfold bits_rng. rewrite skipn_map, skipn_seq'. reflexivity. Qed.

Lemma isbyte_nth l i : Forall isbyte l -> isbyte (nth i l 0).
Proof.
  intros H. destruct (Nat.ltb_spec i (length l)) as [Hi|Hi].
  - rewrite Forall_forall in H. apply H, nth_In, Hi.
  - rewrite nth_overflow by lia. unfold isbyte. lia.
Qed.

Lemma isbyte_testbit x k : isbyte x -> (8 <= k)%nat -> N.testbit x (N.of_nat k) = false.
Proof. intros H Hk. apply testbit_high with (n := 8); [exact H|lia]. Qed.

Lemma isbyte_intro x : (forall k, (8 <= k)%nat -> N.testbit x (N.of_nat k) = false) -> isbyte x.
Proof.
  intros H. unfold isbyte. change 256 with (2 ^ 8).
  assert (x = x mod 2 ^ 8) as ->.
  { apply N_bits_inj_nat. intros k. destruct (Nat.ltb_spec k 8).
    - now rewrite N.mod_pow2_bits_low by lia.
    - rewrite N.mod_pow2_bits_high by lia. apply H. lia. }
  apply N.mod_lt. lia.
Qed.

Lemma byte_at_ok l i : (i < length l)%nat -> byte_at l i = Ok (nth i l 0).
Proof. intros H. unfold byte_at. now rewrite (nth_error_nth' l 0 H). Qed.

Lemma byte_set_ok l i x : (i < length l)%nat -> byte_set l i x = Ok (upd l i x).
Proof. intros H. unfold byte_set. now destruct (Nat.ltb_spec i (length l)); [|lia]. Qed.

Lemma Forall_upd (P : N -> Prop) l i x : Forall P l -> P x -> Forall P (upd l i x).
Proof.
  intros H Hx. revert i. induction H as [|y t Hy Ht IH]; intros i; [destruct i; constructor|].
  destruct i; cbn [upd]; constructor; auto.
Qed.

(** *** testbit of the word operations *)
Lemma tb_shr x k j : N.testbit (shr x k) (N.of_nat j) = N.testbit x (N.of_nat (j + k)).
Proof. unfold shr. rewrite N.shiftr_spec'. f_equal. lia. Qed.

Lemma tb_shiftl x k j : N.testbit (N.shiftl x (N.of_nat k)) (N.of_nat j) = if (k <=? j)%nat then N.testbit x (N.of_nat (j - k)) else false.
Proof.
  destruct (Nat.leb_spec k j).
  - rewrite N.shiftl_spec_high' by lia. f_equal. lia.
  - apply N.shiftl_spec_low. lia.
Qed.

Lemma tb_ones k j : N.testbit (ones k) (N.of_nat j) = (j <? k)%nat.
Proof.
  unfold ones. rewrite ones_ones. destruct (Nat.ltb_spec j k).
  - apply N.ones_spec_low. lia.
  - apply N.ones_spec_high. lia.
Qed.

Lemma tb_to_u8 x j : N.testbit (to_u8 x) (N.of_nat j) = N.testbit x (N.of_nat j) && (j <? 8)%nat.
Proof. unfold to_u8. rewrite N.land_spec. f_equal. exact (tb_ones 8 j). Qed.

Lemma tb_not8 x j : (j < 8)%nat -> N.testbit (not8 x) (N.of_nat j) = negb (N.testbit x (N.of_nat j)).
Proof.
  intros H. unfold not8. rewrite N.lxor_spec. change 255 with (ones 8). rewrite tb_ones.
  destruct (Nat.ltb_spec j 8); [|lia]. now rewrite Bool.xorb_true_r.
Qed.

Lemma tb_shl8 x k j : N.testbit (shl8 x k) (N.of_nat j) = (if (k <=? j)%nat then N.testbit x (N.of_nat (j - k)) else false) && (j <? 8)%nat.
Proof. unfold shl8. rewrite tb_to_u8, tb_shiftl. reflexivity. Qed.

Lemma isbyte_to_u8 x : isbyte (to_u8 x).
Proof. apply isbyte_intro. intros k Hk. rewrite tb_to_u8. destruct (Nat.ltb_spec k 8); [lia|]. apply Bool.andb_false_r. Qed.

(** ** Reading *)

Lemma lor_shl64 r n x :
  (r < 2 ^ (64 - N.of_nat n)) -> (n <= 64)%nat -> x < 2 ^ N.of_nat n -> N.lor (shl64 r n) x = r * 2 ^ N.of_nat n + x.
Proof.
  intros Hr Hn Hx. unfold shl64, u64mask.
  replace (2^64 - 1) with (N.ones 64) by reflexivity.
  rewrite N.land_ones. rewrite N.shiftl_mul_pow2.
  rewrite N.mod_small.
  2:{ replace (2 ^ 64) with (2 ^ (64 - N.of_nat n) * 2 ^ N.of_nat n) by (rewrite <- N.pow_add_r; f_equal; lia).
      apply N.mul_lt_mono_pos_r; [apply pow2_pos|exact Hr]. }
  rewrite <- N.lxor_lor.
  - rewrite N.add_nocarry_lxor; [reflexivity|].
    apply N.bits_inj_0. intros k. rewrite N.land_spec.
    destruct (N.ltb_spec k (N.of_nat n)).
    + rewrite N.mul_pow2_bits_low by assumption. reflexivity.
    + rewrite (testbit_high _ _ _ Hx) by assumption. apply Bool.andb_false_r.
  - apply N.bits_inj_0. intros k. rewrite N.land_spec.
    destruct (N.ltb_spec k (N.of_nat n)).
    + rewrite N.mul_pow2_bits_low by assumption. reflexivity.
    + rewrite (testbit_high _ _ _ Hx) by assumption. apply Bool.andb_false_r.
Qed.

Lemma byte_slice l p n :
  (p mod 8 + n <= 8)%nat -> bits_rng l p n = bits_of n (shr (nth (p / 8) l 0) (8 - p mod 8 - n)).
Proof.
  intros H. apply map_seq_bits_of. intros i Hi. unfold bit_at. rewrite tb_shr.
  assert ((p + i) / 8 = p / 8)%nat as -> by lia.
  f_equal. f_equal. lia.
Qed.

Lemma rd_full_spec l k p r m :
  Forall isbyte l -> (p mod 8 = 0)%nat -> (p + 8 * k <= 8 * length l)%nat ->
  r < 2 ^ N.of_nat m -> (m + 8 * k <= 64)%nat ->
  rd_full l k p r = Ok (r * 2 ^ N.of_nat (8 * k) + bits_val (bits_rng l p (8 * k))).
Proof.
  intros Hl. revert p r m. induction k as [|k IH]; intros p r m Hp Hlen Hr Hm.
  - cbn [rd_full]. change (8 * 0)%nat with 0%nat. unfold bits_rng. cbn. f_equal. lia.
  - cbn [rd_full]. rewrite byte_at_ok by lia. cbn [bind].
    pose proof (isbyte_nth _ (p / 8) Hl) as Hb.
    rewrite lor_shl64; [|eapply N.lt_le_trans; [exact Hr|apply N.pow_le_mono_r; lia]|lia|exact Hb].
    assert (bits_val (bits_rng l p 8) = nth (p / 8) l 0) as E.
    { rewrite byte_slice by lia. rewrite Hp. cbn [Nat.sub]. rewrite bits_val_of_mod.
      unfold shr. rewrite N.shiftr_0_r. apply N.mod_small, Hb. }
    rewrite IH with (m := (m + 8)%nat).
    + f_equal. replace (8 * S k)%nat with (8 + 8 * k)%nat by lia.
      rewrite bits_rng_app, bits_val_app, bits_rng_length, E.
      rewrite Nat2N.inj_add, N.pow_add_r. change (N.of_nat 8) with 8. lia.
    + lia.
    + lia.
    + rewrite Nat2N.inj_add, N.pow_add_r. change (N.of_nat 8) with 8. change (2^8) with 256 in *. unfold isbyte in Hb. lia.
    + lia.
Qed.

Lemma rd_tail_spec l p i n r m :
  (p mod 8 + i + n <= 8)%nat ->
  r < 2 ^ N.of_nat m -> (m + n <= 64)%nat ->
  rd_tail (nth (p / 8) l 0) p i n r = r * 2 ^ N.of_nat n + bits_val (bits_rng l (p + i) n).
Proof.
  revert i r m. induction n as [|n IH]; intros i r m Hp Hr Hm.
  - cbn [rd_tail]. unfold bits_rng. cbn. lia.
  - cbn [rd_tail].
    assert (N.land (shr (nth (p / 8) l 0) (7 - (p mod 8 + i))) 1 = N.b2n (bit_at l (p + i))) as E.
    { change 1 with (N.ones 1). rewrite N.land_ones. change (2^1) with 2. rewrite <- N.bit0_mod.
      change 0 with (N.of_nat 0). rewrite tb_shr. unfold bit_at. f_equal.
      replace ((p + i) / 8)%nat with (p / 8)%nat by lia.
      f_equal. f_equal. lia. }
    rewrite E.
    rewrite lor_shl64; [|eapply N.lt_le_trans; [exact Hr|apply N.pow_le_mono_r; lia]|lia|destruct (bit_at l (p + i)); cbn; lia].
    rewrite IH with (m := S m); [|lia| |lia].
    + replace (S n) with (1 + n)%nat by lia. rewrite bits_rng_app, bits_val_app, bits_rng_length.
      assert (bits_val (bits_rng l (p + i) 1) = N.b2n (bit_at l (p + i))) as -> by reflexivity.
      replace (p + S i)%nat with (p + i + 1)%nat by lia.
      rewrite Nat2N.inj_add, N.pow_add_r. change (N.of_nat 1) with 1. change (2 ^ 1) with 2. lia.
    + rewrite (Nat2N.inj_succ m), N.pow_succ_r'. change (2 ^ N.of_nat 1) with 2. destruct (bit_at l (p + i)); cbn [N.b2n]; lia.
Qed.

(** The read primitive returns the big-endian value of the bits, at every alignment. *)
Lemma read_unchecked_spec l p n :
  Forall isbyte l -> (p + n <= 8 * length l)%nat -> (n <= 64)%nat ->
  read_bits_at_unchecked l p n = Ok (bits_val (bits_rng l p n)).
Proof.
  intros Hl Hp Hn. unfold read_bits_at_unchecked.
  set (head := (p mod 8)%nat).
  set (t := if (negb (head =? 0) && (0 <? n))%nat then Nat.min (8 - head) n else 0%nat).
  match goal with |- bind ?x ?f = _ => set (K := f); assert (x = Ok (bits_val (bits_rng l p t), (p + t)%nat, (n - t)%nat)) as -> end.
  { unfold t. destruct (negb (head =? 0) && (0 <? n))%nat eqn:E.
    - assert (head <> 0 /\ 0 < n)%nat as [H1 H2] by lia.
      rewrite byte_at_ok by lia. cbn [bind].
      set (take := Nat.min (8 - head) n).
      assert (take <= 8)%nat by lia.
      do 3 f_equal. rewrite byte_slice by (fold head; lia). fold head.
      rewrite bits_val_of_mod. unfold to_u8, ones. rewrite ones_ones.
      rewrite <- N.land_ones. f_equal.
      change 255 with (N.ones 8). rewrite N.land_ones. apply N.mod_small.
      rewrite N.ones_equiv. pose proof (pow2_pos (N.of_nat take)).
      assert (2 ^ N.of_nat take <= 2 ^ 8) by (apply N.pow_le_mono_r; lia). lia.
    - cbn. unfold bits_rng. cbn. do 2 f_equal; [f_equal; lia|lia]. }
  subst K. cbn [bind].
  set (k := ((n - t) / 8)%nat).
  assert (t <= n)%nat by (unfold t; destruct (_ && _); lia).
  assert (n - t = 0 \/ (p + t) mod 8 = 0)%nat as Hal.
  { unfold t, head. destruct (negb (p mod 8 =? 0) && (0 <? n))%nat eqn:E; lia. }
  assert (k = 0 \/ (p + t) mod 8 = 0)%nat as Hal' by (unfold k; lia).
  assert (rd_full l k (p + t) (bits_val (bits_rng l p t)) = Ok (bits_val (bits_rng l p (t + 8 * k)))) as ->.
  { destruct Hal' as [->|Hal'].
    - cbn [rd_full]. do 3 f_equal. lia.
    - rewrite rd_full_spec with (m := t).
      + rewrite bits_rng_app, bits_val_app, bits_rng_length. reflexivity.
      + exact Hl.
      + exact Hal'.
      + unfold k; lia.
      + rewrite <- (bits_rng_length l p t) at 2. apply bits_val_bound.
      + unfold k; lia. }
  cbn [bind].
  set (r := (n - t - 8 * k)%nat).
  destruct (Nat.ltb_spec 0 r) as [Hr|Hr].
  - assert ((p + t) mod 8 = 0)%nat by lia.
    rewrite byte_at_ok by lia. cbn [bind]. f_equal.
    rewrite rd_tail_spec with (m := (t + 8 * k)%nat).
    + rewrite Nat.add_0_r. transitivity (bits_val (bits_rng l p (t + 8 * k + r)%nat)); [|do 2 f_equal; unfold r, k; lia].
      rewrite (bits_rng_app l p (t + 8 * k) r), bits_val_app, bits_rng_length.
      replace (p + (t + 8 * k))%nat with (p + t + 8 * k)%nat by lia. reflexivity.
    + unfold r, k. lia.
    + rewrite <- (bits_rng_length l p (t + 8 * k)) at 2. apply bits_val_bound.
    + unfold r; lia.
  - do 3 f_equal. unfold r, k in *. lia.
Qed.

Lemma read_bit_unchecked_spec l p :
  (p < 8 * length l)%nat -> read_bit_at_unchecked l p = Ok (N.b2n (bit_at l p)).
Proof.
  intros H. unfold read_bit_at_unchecked. rewrite byte_at_ok by lia. cbn [bind]. f_equal.
  change 1 with (N.ones 1). rewrite N.land_ones. change (2^1) with 2. rewrite <- N.bit0_mod.
  change 0 with (N.of_nat 0) at 2. rewrite tb_shr. reflexivity.
Qed.

(** ** Writing *)

(** [l'] is [l] with the [n] low bits of [v] stored at [p..p+n), nothing else changed. *)
Definition stored (l l' : list N) (p n : nat) (v : N) : Prop :=
  length l' = length l /\ Forall isbyte l' /\
  forall i, bit_at l' i = if ((p <=? i) && (i <? p + n))%nat then N.testbit v (N.of_nat (n - 1 - (i - p))) else bit_at l i.

Lemma stored_refl l p v : Forall isbyte l -> stored l l p 0 v.
Proof. intros H. split; [reflexivity|]. split; [exact H|]. intros i. destruct ((p <=? i) && (i <? p + 0))%nat eqn:E; [lia|reflexivity]. Qed.

Lemma stored_trans l l1 l2 p n m v :
  stored l l1 p n (shr v m) -> stored l1 l2 (p + n) m v -> stored l l2 p (n + m) v.
Proof.
  intros (L1 & B1 & H1) (L2 & B2 & H2). split; [congruence|]. split; [assumption|].
  intros i. rewrite H2, H1.
  destruct ((p + n <=? i) && (i <? p + n + m))%nat eqn:E2.
  - destruct ((p <=? i) && (i <? p + (n + m)))%nat eqn:E; [|lia]. f_equal. f_equal. lia.
  - destruct ((p <=? i) && (i <? p + n))%nat eqn:E1.
    + destruct ((p <=? i) && (i <? p + (n + m)))%nat eqn:E; [|lia]. rewrite tb_shr. f_equal. f_equal. lia.
    + destruct ((p <=? i) && (i <? p + (n + m)))%nat eqn:E; [lia|reflexivity].
Qed.

Lemma stored_ext l l' p n v w :
  (forall k, (k < n)%nat -> N.testbit v (N.of_nat k) = N.testbit w (N.of_nat k)) ->
  stored l l' p n v -> stored l l' p n w.
Proof.
  intros E (L & B & H). split; [assumption|]. split; [assumption|].
  intros i. rewrite H. destruct ((p <=? i) && (i <? p + n))%nat eqn:E1; [|reflexivity]. apply E. lia.
Qed.

Lemma bit_at_upd l j x i :
  (j < length l)%nat ->
  bit_at (upd l j x) i = if (i / 8 =? j)%nat then N.testbit x (N.of_nat (7 - i mod 8)) else bit_at l i.
Proof.
  intros H. unfold bit_at. rewrite nth_upd.
  destruct (Nat.eqb_spec (i / 8) j) as [->|Hn]; cbn [andb]; [|reflexivity].
  destruct (Nat.ltb_spec j (length l)); [reflexivity|lia].
Qed.

Lemma wr_part_tb byte bw h shift j :
  (h + shift <= 8)%nat -> (j < 8)%nat -> bw < 2 ^ N.of_nat h ->
  N.testbit (wr_part byte bw h shift) (N.of_nat j) =
  if ((shift <=? j) && (j <? shift + h))%nat then N.testbit bw (N.of_nat (j - shift)) else N.testbit byte (N.of_nat j).
Proof.
  intros Hs Hj Hw. unfold wr_part. rewrite N.lor_spec, N.land_spec, tb_not8 by assumption.
  rewrite tb_to_u8, tb_shiftl, tb_ones, tb_shl8.
  destruct (Nat.ltb_spec j 8); [|lia]. rewrite !Bool.andb_true_r.
  destruct (Nat.leb_spec shift j); cbn [andb].
  - destruct (Nat.ltb_spec (j - shift) h).
    + destruct (Nat.ltb_spec j (shift + h)); [|lia]. cbn [negb]. now rewrite Bool.andb_false_r.
    + destruct (Nat.ltb_spec j (shift + h)); [lia|]. cbn [negb]. rewrite Bool.andb_true_r.
      rewrite (testbit_high _ _ _ Hw) by lia. apply Bool.orb_false_r.
  - cbn [negb]. rewrite Bool.andb_true_r. apply Bool.orb_false_r.
Qed.

Lemma isbyte_wr_part byte bw h shift : isbyte byte -> isbyte (wr_part byte bw h shift).
Proof.
  intros H. apply isbyte_intro. intros k Hk. unfold wr_part.
  rewrite N.lor_spec, N.land_spec, (isbyte_testbit _ k H Hk), tb_shl8.
  destruct (Nat.ltb_spec k 8); [lia|]. now rewrite Bool.andb_false_r.
Qed.

Lemma stored_part l p n bw :
  Forall isbyte l -> (p mod 8 + n <= 8)%nat -> (p / 8 < length l)%nat -> bw < 2 ^ N.of_nat n ->
  stored l (upd l (p / 8) (wr_part (nth (p / 8) l 0) bw n (8 - (p mod 8 + n)))) p n bw.
Proof.
  intros Hl Hp Hi Hw. split; [apply upd_length|]. split.
  { apply Forall_upd; [assumption|]. apply isbyte_wr_part, isbyte_nth, Hl. }
  intros i. rewrite bit_at_upd by assumption.
  destruct (Nat.eqb_spec (i / 8) (p / 8)) as [E|E].
  - rewrite wr_part_tb by lia.
    destruct ((8 - (p mod 8 + n) <=? 7 - i mod 8) && (7 - i mod 8 <? 8 - (p mod 8 + n) + n))%nat eqn:E1;
    destruct ((p <=? i) && (i <? p + n))%nat eqn:E2; try lia.
    + f_equal. f_equal. lia.
    + unfold bit_at. now rewrite E.
  - destruct ((p <=? i) && (i <? p + n))%nat eqn:E2; [lia|reflexivity].
Qed.

Lemma wr_full_spec l v k cur r :
  Forall isbyte l -> (cur mod 8 = 0)%nat -> (cur + 8 * k <= 8 * length l)%nat -> (8 * k <= r)%nat ->
  exists l', wr_full l v k cur r = Ok l' /\ stored l l' cur (8 * k) (shr v (r - 8 * k)).
Proof.
  revert l cur r. induction k as [|k IH]; intros l cur r Hl Hc Hlen Hr.
  - exists l. split; [reflexivity|]. apply stored_refl, Hl.
  - cbn [wr_full]. rewrite byte_set_ok by lia. cbn [bind].
    set (bv := to_u8 (N.land (shr v (r - 8)) 255)).
    assert (stored l (upd l (cur / 8) bv) cur 8 (shr v (r - 8))) as Hst.
    { split; [apply upd_length|]. split; [apply Forall_upd; [assumption|apply isbyte_to_u8]|].
      intros i. rewrite bit_at_upd by lia.
      destruct (Nat.eqb_spec (i / 8) (cur / 8)) as [E|E];
      destruct ((cur <=? i) && (i <? cur + 8))%nat eqn:E2; try lia; [|reflexivity].
      unfold bv. rewrite tb_to_u8. change 255 with (ones 8). rewrite N.land_spec, tb_ones.
      destruct (Nat.ltb_spec (7 - i mod 8) 8); [|lia]. rewrite !Bool.andb_true_r. f_equal. f_equal. lia. }
    destruct (IH (upd l (cur / 8) bv) (cur + 8)%nat (r - 8)%nat) as (l' & E & HS).
    + apply Hst.
    + lia.
    + destruct Hst as (-> & _ & _). lia.
    + lia.
    + exists l'. split; [exact E|].
      replace (8 * S k)%nat with (8 + 8 * k)%nat by lia.
      eapply stored_trans; [|replace (r - (8 + 8 * k))%nat with (r - 8 - 8 * k)%nat by lia; exact HS].
      eapply stored_ext; [|exact Hst]. intros j Hj. rewrite !tb_shr. f_equal. f_equal. lia.
Qed.

(** [b'] is [b] after appending the bit string [w] at the cursor. *)
Definition wrote (b b' : bitbuf) (w : list bool) : Prop :=
  wf b' /\ bstart b' = bstart b /\ autoexp b' = autoexp b /\
  bpos b' = (bpos b + length w)%nat /\
  (length (bytes b) <= length (bytes b'))%nat /\
  (forall i, bit_at (bytes b') i = if ((bpos b <=? i) && (i <? bpos b + length w))%nat then nth (i - bpos b) w false else bit_at (bytes b) i) /\
  (bend b <= bend b')%nat /\
  ((bpos b + length w <= bend b)%nat -> bend b' = bend b /\ length (bytes b') = length (bytes b)) /\
  (bpos b = bend b -> bend b' = bpos b').

(** Enough room for [n] more bits (always, when the buffer auto-expands). *)
Definition room (b : bitbuf) (n : nat) : Prop := autoexp b = true \/ (bpos b + n <= bend b)%nat.

Lemma bit_at_app0 l k i : bit_at (l ++ repeat 0 k) i = bit_at l i.
Proof.
  unfold bit_at. f_equal.
  destruct (Nat.ltb_spec (i / 8) (length l)).
  - now rewrite app_nth1 by lia.
  - rewrite app_nth2 by lia. rewrite (nth_overflow l) by lia.
    destruct (Nat.ltb_spec (i / 8 - length l) k).
    + apply nth_repeat.
    + apply nth_overflow. rewrite repeat_length. lia.
Qed.

Lemma move_end_spec b n :
  wf b ->
  exists b', move_end b n = Ok b' /\ wf b' /\ bstart b' = bstart b /\ bpos b' = bpos b /\ autoexp b' = autoexp b /\
    bend b' = (bend b + n)%nat /\ (length (bytes b) <= length (bytes b'))%nat /\
    forall i, bit_at (bytes b') i = bit_at (bytes b) i.
Proof.
  intros (W1 & W2 & W3 & W4). unfold move_end, sub_checked, realloc_tail, cap in *.
  destruct (Nat.leb_spec (bend b) (length (bytes b) * 8)); [|lia]. cbn [bind].
  destruct (Nat.ltb_spec (length (bytes b) * 8 - bend b) n) as [H1|H1].
  - set (m := Nat.max (bend b + n) (length (bytes b) * 8 * 2)).
    assert ((length (bytes b) <=? (m + 7) / 8)%nat = true) as -> by lia.
    cbn [assert bind]. eexists. split; [reflexivity|].
    set (k := ((m + 7) / 8 - length (bytes b))%nat).
    unfold wf, cap; cbn [set_end set_bytes bytes bstart bpos bend autoexp].
    assert (length (bytes b ++ repeat 0 k) = ((m + 7) / 8)%nat) as HL by (rewrite app_length, repeat_length; lia).
    rewrite HL. split; [|repeat (split; [lia || reflexivity|]); apply bit_at_app0].
    repeat (split; [lia|]).
    apply Forall_app. split; [assumption|]. apply Forall_forall. intros x Hx. apply repeat_spec in Hx. subst. unfold isbyte; lia.
  - cbn [bind]. eexists. split; [reflexivity|].
    cbn [set_end bytes bstart bpos bend autoexp]. unfold wf, cap. cbn [set_end bytes bstart bpos bend autoexp].
    repeat split; try lia; assumption.
Qed.

Lemma expand_spec b n :
  wf b -> room b n ->
  exists b1, (if (bend b <? bpos b + n)%nat then if autoexp b then move_end b n else Panic else Ok b) = Ok b1
    /\ wf b1 /\ bstart b1 = bstart b /\ bpos b1 = bpos b /\ autoexp b1 = autoexp b /\
    bend b1 = (if (bpos b + n <=? bend b)%nat then bend b else bend b + n)%nat /\
    (length (bytes b) <= length (bytes b1))%nat /\ (bpos b1 + n <= bend b1)%nat /\
    ((bpos b + n <= bend b)%nat -> b1 = b) /\
    forall i, bit_at (bytes b1) i = bit_at (bytes b) i.
Proof.
  intros W R. destruct (Nat.ltb_spec (bend b) (bpos b + n)) as [H|H].
  - assert (autoexp b = true) as HA by (destruct R; [assumption|lia]). rewrite HA.
    destruct (move_end_spec b n W) as (b1 & E & W1 & E1 & E2 & E3 & E4 & E5 & E6).
    exists b1. destruct W as (? & ? & ? & ?).
    destruct (Nat.leb_spec (bpos b + n) (bend b)); [lia|].
    repeat (split; [first [assumption|lia|congruence|intros; lia]|]). assumption.
  - exists b. destruct (Nat.leb_spec (bpos b + n) (bend b)); [|lia].
    repeat (split; [first [assumption|lia|congruence]|]). reflexivity.
Qed.

(** The write primitive: for every alignment, width and content. *)
Lemma write_bits_spec b v n :
  wf b -> (n <= 64)%nat -> v < 2 ^ N.of_nat n -> room b n ->
  exists b', write_bits v n b = Ok b' /\ wrote b b' (bits_of n v) /\
    bend b' = (if (bpos b + n <=? bend b)%nat then bend b else bend b + n)%nat.
Proof.
  intros W Hn Hv R. unfold write_bits.
  assert ((n <=? 64)%nat = true) as -> by lia. cbn [assert bind].
  assert (((n =? 64)%nat || (shr v n =? 0)) = true) as ->.
  { apply Bool.orb_true_iff. right. apply N.eqb_eq. unfold shr. rewrite N.shiftr_div_pow2. apply N.div_small, Hv. }
  cbn [assert bind].
  destruct (expand_spec _ _ W R) as (b1 & -> & W1 & S1 & P1 & A1 & En1 & L1 & Rm1 & Same1 & B1).
  cbn [bind].
  assert ((if (n =? 64)%nat then v else N.land v (ones n)) = v) as ->.
  { destruct (Nat.eqb_spec n 64); [reflexivity|]. unfold ones. rewrite ones_ones, N.land_ones. apply N.mod_small, Hv. }
  destruct W1 as (W1a & W1b & W1c & W1d). unfold cap in W1c.
  set (p := bpos b1) in *. set (l := bytes b1) in *.
  set (head := (p mod 8)%nat).
  set (h := if (negb (head =? 0) && (0 <? n))%nat then Nat.min n (8 - head) else 0%nat).
  match goal with |- context [bind (if ?c then ?x else ?y) ?f] =>
    set (K := f); assert (exists l1, (if c then x else y) = Ok (l1, (p + h)%nat, (n - h)%nat) /\ stored l l1 p h (shr v (n - h))) as (l1 & -> & St1) end.
  { unfold h. destruct (negb (head =? 0) && (0 <? n))%nat eqn:E.
    - assert (head <> 0 /\ 0 < n)%nat as [H1 H2] by lia.
      set (hh := Nat.min n (8 - head)).
      rewrite byte_at_ok by lia. cbn [bind]. rewrite byte_set_ok by lia. cbn [bind].
      eexists. split; [reflexivity|].
      set (bw := N.land (to_u8 (shr v (n - hh))) (to_u8 (ones hh))).
      assert (forall k, (k < hh)%nat -> N.testbit bw (N.of_nat k) = N.testbit (shr v (n - hh)) (N.of_nat k)) as Hbw.
      { intros k Hk. unfold bw. rewrite N.land_spec, !tb_to_u8, tb_ones.
        destruct (Nat.ltb_spec k hh); [|lia]. destruct (Nat.ltb_spec k 8); [|lia]. now rewrite !Bool.andb_true_r. }
      eapply stored_ext; [exact Hbw|].
      apply stored_part; [assumption|unfold head in *; lia|lia|].
      unfold bw, to_u8. rewrite <- N.land_assoc. change 255 with (N.ones 8). unfold ones. rewrite ones_ones.
      rewrite (N.land_comm (N.ones (N.of_nat hh))), !N.land_assoc, N.land_ones. apply N.mod_lt, N.pow_nonzero. lia.
    - exists l. split; [do 2 f_equal; [f_equal|]; lia|]. apply stored_refl. assumption. }
  subst K. cbn [bind].
  assert (h <= n)%nat by (unfold h; destruct (_ && _); lia).
  assert (n - h = 0 \/ (p + h) mod 8 = 0)%nat as Hal.
  { unfold h, head. destruct (negb (p mod 8 =? 0) && (0 <? n))%nat eqn:E; lia. }
  set (k := ((n - h) / 8)%nat).
  assert (length l1 = length l /\ Forall isbyte l1) as [Hl1 Hl1b] by (destruct St1 as (? & ? & ?); auto).
  assert (exists l2, wr_full l1 v k (p + h) (n - h) = Ok l2 /\ stored l l2 p (h + 8 * k) (shr v (n - h - 8 * k))) as (l2 & -> & St2).
  { assert (k = 0 \/ (p + h) mod 8 = 0)%nat as [Hk|Hk] by (unfold k; lia).
    - rewrite Hk. exists l1. split; [reflexivity|]. cbn [Nat.mul]. rewrite Nat.add_0_r, Nat.sub_0_r. exact St1.
    - destruct (wr_full_spec l1 v k (p + h) (n - h)) as (l2 & E2 & S2); [assumption|assumption|unfold k; lia|unfold k; lia|].
      exists l2. split; [assumption|]. eapply stored_trans; [|exact S2].
      eapply stored_ext; [|exact St1]. intros j Hj. rewrite !tb_shr. f_equal. f_equal. unfold k. lia. }
  cbn [bind].
  assert (length l2 = length l /\ Forall isbyte l2) as [Hl2 Hl2b] by (destruct St2 as (? & ? & ?); auto).
  set (r := (n - h - 8 * k)%nat) in *.
  match goal with |- context [bind (if ?c then ?x else ?y) ?f] =>
    set (K := f); assert (exists l3, (if c then x else y) = Ok l3 /\ stored l l3 p n v) as (l3 & -> & St3) end.
  { destruct (Nat.ltb_spec 0 r) as [Hr|Hr].
    - assert ((p + h) mod 8 = 0)%nat by lia.
      rewrite byte_at_ok by lia. cbn [bind]. rewrite byte_set_ok by lia.
      eexists. split; [reflexivity|].
      replace n with (h + 8 * k + r)%nat by (unfold r, k; lia).
      eapply stored_trans; [exact St2|].
      replace (p + (h + 8 * k))%nat with (p + h + 8 * k)%nat by lia.
      set (bw := N.land (to_u8 v) (to_u8 (ones r))).
      assert (forall j, (j < r)%nat -> N.testbit bw (N.of_nat j) = N.testbit v (N.of_nat j)) as Hbw.
      { intros j Hj. unfold bw. rewrite N.land_spec, !tb_to_u8, tb_ones.
        destruct (Nat.ltb_spec j r); [|lia]. destruct (Nat.ltb_spec j 8); [|unfold r, k in *; lia]. now rewrite !Bool.andb_true_r. }
      eapply stored_ext; [exact Hbw|].
      apply stored_part; [assumption|unfold r, k in *; lia|lia|].
      unfold bw, to_u8. rewrite <- N.land_assoc. change 255 with (N.ones 8). unfold ones. rewrite ones_ones.
      rewrite (N.land_comm (N.ones (N.of_nat r))), !N.land_assoc, N.land_ones. apply N.mod_lt, N.pow_nonzero. lia.
    - exists l2. split; [reflexivity|]. assert (h + 8 * k = n)%nat as E by (unfold r, k in *; lia). rewrite E in St2.
      eapply stored_ext; [|exact St2]. intros j Hj. rewrite tb_shr. f_equal. f_equal. lia. }
  subst K. cbn [bind]. eexists. split; [reflexivity|].
  destruct St3 as (L3 & B3 & H3).
  unfold wrote. cbn [set_pos set_bytes bytes bstart bpos bend autoexp]. rewrite bits_of_length.
  rewrite !and_assoc.
  split.
  { unfold wf, cap. cbn [set_pos set_bytes bytes bstart bpos bend autoexp]. fold p. repeat split; try lia. assumption. }
  fold p in P1 |- *. rewrite <- P1.
  split; [exact S1|]. split; [exact A1|]. split; [lia|]. split; [fold l in L1; lia|].
  split.
  { intros i. rewrite H3. destruct ((p <=? i) && (i <? p + n))%nat eqn:E.
    - rewrite nth_bits_of by lia. reflexivity.
    - rewrite <- B1. reflexivity. }
  rewrite P1.
  destruct (Nat.leb_spec (bpos b + n) (bend b)) as [Hfit|Hfit].
  - split; [lia|]. split; [|split; [lia|exact En1]]. intros _. split; [exact En1|]. rewrite L3. unfold l. rewrite Same1 by lia. reflexivity.
  - repeat (split; [lia|]). exact En1.
Qed.

(** ** Window view *)

(** Bits from the cursor to the end of the window / from its start to its end. *)
Definition remaining (b : bitbuf) : list bool := bits_rng (bytes b) (bpos b) (bend b - bpos b).
Definition window (b : bitbuf) : list bool := bits_rng (bytes b) (bstart b) (bend b - bstart b).
(** Bits from the start of the window to the cursor. *)
Definition written (b : bitbuf) : list bool := bits_rng (bytes b) (bstart b) (bpos b - bstart b).
(** Cursor advanced by [n]. *)
Definition adv (b : bitbuf) (n : nat) : bitbuf := set_pos b (bpos b + n).

Lemma adv_adv b n m : adv (adv b n) m = adv b (n + m).
Proof. unfold adv, set_pos; cbn. now rewrite Nat.add_assoc. Qed.
Lemma adv_0 b : adv b 0 = b.
Proof. unfold adv, set_pos. rewrite Nat.add_0_r. now destruct b. Qed.

Lemma wf_adv b n : wf b -> (n <= length (remaining b))%nat -> wf (adv b n).
Proof.
  intros (H1 & H2 & H3 & H4) H. unfold remaining in H. rewrite bits_rng_length in H.
  unfold wf, adv, set_pos, cap in *; cbn [bytes bstart bpos bend autoexp]. repeat split; try lia; assumption.
Qed.

Lemma remaining_adv b n : wf b -> remaining (adv b n) = skipn n (remaining b).
Proof.
  intros _. unfold remaining, adv, set_pos; cbn [bytes bpos bend]. rewrite skipn_bits_rng. f_equal. lia.
Qed.

Lemma remaining_length b : length (remaining b) = (bend b - bpos b)%nat.
Proof. apply bits_rng_length. Qed.

Lemma window_split b : wf b -> window b = written b ++ remaining b.
Proof.
  intros (H1 & H2 & _). unfold window, written, remaining.
  replace (bend b - bstart b)%nat with ((bpos b - bstart b) + (bend b - bpos b))%nat by lia.
  rewrite bits_rng_app. do 2 f_equal. lia.
Qed.

Lemma peek_startoffset_spec b off n :
  wf b -> (n <= 64)%nat ->
  peek_bits_startoffset b off n =
  Ok (if (bstart b + off + n <=? bend b)%nat then Some (bits_val (bits_rng (bytes b) (bstart b + off) n)) else None).
Proof.
  intros (H1 & H2 & H3 & H4) Hn. unfold peek_bits_startoffset, cap in *.
  destruct (Nat.ltb_spec 64 n); [lia|]. cbn [orb].
  destruct (Nat.ltb_spec (bend b) (bstart b + off + n)); destruct (Nat.leb_spec (bstart b + off + n) (bend b)); try lia; [reflexivity|].
  rewrite read_unchecked_spec by (assumption || lia). reflexivity.
Qed.

Lemma peek_posoffset_spec b off n :
  wf b -> (n <= 64)%nat ->
  peek_bits_posoffset b off n =
  Ok (if (off + n <=? length (remaining b))%nat then Some (bits_val (firstn n (skipn off (remaining b)))) else None).
Proof.
  intros W Hn. unfold peek_bits_posoffset, sub_checked.
  pose proof W as (H1 & H2 & H3 & H4).
  destruct (Nat.leb_spec (bstart b) (bpos b)); [|lia]. cbn [bind].
  rewrite peek_startoffset_spec by assumption. f_equal.
  rewrite remaining_length. unfold remaining. rewrite skipn_bits_rng.
  destruct (Nat.leb_spec (off + n) (bend b - bpos b)); destruct (Nat.leb_spec (bstart b + (bpos b - bstart b + off) + n) (bend b)); try lia; [|reflexivity].
  rewrite firstn_bits_rng by lia. do 3 f_equal. lia.
Qed.

Lemma peek_bits_spec b n :
  wf b -> (n <= 64)%nat ->
  peek_bits b n = Ok (if (n <=? length (remaining b))%nat then Some (bits_val (firstn n (remaining b))) else None).
Proof. intros W Hn. unfold peek_bits. rewrite peek_posoffset_spec by assumption. reflexivity. Qed.

Lemma read_bits_opt_spec b n :
  wf b -> (n <= 64)%nat ->
  read_bits_opt b n =
  Ok (if (n <=? length (remaining b))%nat then (Some (bits_val (firstn n (remaining b))), adv b n) else (None, b)).
Proof.
  intros W Hn. pose proof W as (H1 & H2 & H3 & H4).
  unfold read_bits_opt, sub_checked. destruct (Nat.leb_spec (bstart b) (bpos b)); [|lia]. cbn [bind].
  rewrite peek_startoffset_spec by assumption. cbn [bind].
  rewrite remaining_length.
  destruct (Nat.leb_spec n (bend b - bpos b)); destruct (Nat.leb_spec (bstart b + (bpos b - bstart b) + n) (bend b)); try lia; [|reflexivity].
  unfold remaining. rewrite firstn_bits_rng by lia. do 5 f_equal. lia.
Qed.

Lemma read_bits_opt_wide b n : wf b -> (64 < n)%nat -> read_bits_opt b n = Ok (None, b).
Proof.
  intros (H1 & _) Hn. unfold read_bits_opt, sub_checked, peek_bits_startoffset.
  destruct (Nat.leb_spec (bstart b) (bpos b)); [|lia]. cbn [bind].
  destruct (Nat.ltb_spec 64 n); [|lia]. reflexivity.
Qed.

Lemma read_field_spec b n :
  wf b -> (n <= 64)%nat ->
  read_field n b = if (n <=? length (remaining b))%nat then Ok (bits_val (firstn n (remaining b)), adv b n) else Err EBufferEnded.
Proof.
  intros W Hn. unfold read_field. rewrite read_bits_opt_spec by assumption. cbn [bind].
  destruct (n <=? length (remaining b))%nat; reflexivity.
Qed.

(** ** Composing writes *)

Lemma wrote_nil b : wf b -> wrote b b [].
Proof.
  intros W. unfold wrote. cbn [length]. split; [assumption|].
  repeat (split; [first [lia|reflexivity]|]).
  split; [intros i; destruct ((bpos b <=? i) && (i <? bpos b + 0))%nat eqn:E; [lia|reflexivity]|].
  split; [lia|]. split; [auto|lia].
Qed.

Lemma wrote_trans b b1 b2 l1 l2 : wrote b b1 l1 -> wrote b1 b2 l2 -> wrote b b2 (l1 ++ l2).
Proof.
  intros (W1 & S1 & A1 & P1 & L1 & B1 & E1 & F1 & T1) (W2 & S2 & A2 & P2 & L2 & B2 & E2 & F2 & T2).
  unfold wrote. rewrite app_length.
  split; [assumption|]. split; [congruence|]. split; [congruence|]. split; [lia|]. split; [lia|].
  split.
  { intros i. rewrite B2, B1.
    destruct ((bpos b1 <=? i) && (i <? bpos b1 + length l2))%nat eqn:H2.
    - destruct ((bpos b <=? i) && (i <? bpos b + (length l1 + length l2)))%nat eqn:H3; [|lia].
      rewrite app_nth2 by lia. f_equal. lia.
    - destruct ((bpos b <=? i) && (i <? bpos b + length l1))%nat eqn:H1.
      + destruct ((bpos b <=? i) && (i <? bpos b + (length l1 + length l2)))%nat eqn:H3; [|lia].
        rewrite app_nth1 by lia. reflexivity.
      + destruct ((bpos b <=? i) && (i <? bpos b + (length l1 + length l2)))%nat eqn:H3; [lia|reflexivity]. }
  split; [lia|]. split.
  - intros H. destruct F1 as [F1a F1b]; [lia|]. destruct F2 as [F2a F2b]; [lia|]. split; congruence.
  - intros H. apply T2. rewrite T1 by assumption. reflexivity.
Qed.

Lemma room_mono b n m : room b n -> (m <= n)%nat -> room b m.
Proof. intros [H|H] Hm; [left; assumption|right; lia]. Qed.

Lemma room_after b b1 l n : wrote b b1 l -> room b (length l + n) -> room b1 n.
Proof.
  intros (W1 & S1 & A1 & P1 & L1 & B1 & E1 & F1 & T1) [H|H].
  - left. congruence.
  - right. destruct F1 as [F1 _]; [lia|]. lia.
Qed.

Lemma wrote_bits b b' l : wrote b b' l -> bits_rng (bytes b') (bpos b) (length l) = l.
Proof.
  intros (W1 & S1 & A1 & P1 & L1 & B1 & _).
  apply nth_ext with (d := false) (d' := false); [apply bits_rng_length|].
  intros i Hi. rewrite bits_rng_length in Hi. rewrite nth_bits_rng by lia. rewrite B1.
  destruct ((bpos b <=? bpos b + i) && (bpos b + i <? bpos b + length l))%nat eqn:E; [|lia]. f_equal. lia.
Qed.

Lemma wrote_prefix b b' l p n : wrote b b' l -> (p + n <= bpos b)%nat -> bits_rng (bytes b') p n = bits_rng (bytes b) p n.
Proof.
  intros (W1 & S1 & A1 & P1 & L1 & B1 & _) H. apply bits_rng_ext. intros i Hi. rewrite B1.
  destruct ((bpos b <=? i) && (i <? bpos b + length l))%nat eqn:E; [lia|reflexivity].
Qed.

Lemma wrote_suffix b b' l p n : wrote b b' l -> (bpos b + length l <= p)%nat -> bits_rng (bytes b') p n = bits_rng (bytes b) p n.
Proof.
  intros (W1 & S1 & A1 & P1 & L1 & B1 & _) H. apply bits_rng_ext. intros i Hi. rewrite B1.
  destruct ((bpos b <=? i) && (i <? bpos b + length l))%nat eqn:E; [lia|reflexivity].
Qed.

Lemma wrote_written b b' l : wf b -> wrote b b' l -> written b' = written b ++ l.
Proof.
  intros W H. pose proof H as (W1 & S1 & A1 & P1 & _). unfold written. rewrite P1, S1.
  destruct W as (H1 & _). replace (bpos b + length l - bstart b)%nat with ((bpos b - bstart b) + length l)%nat by lia.
  rewrite bits_rng_app. f_equal.
  - eapply wrote_prefix; [exact H|]. lia.
  - replace (bstart b + (bpos b - bstart b))%nat with (bpos b) by lia. eapply wrote_bits, H.
Qed.

(** Rewinding after a write: the written bits are what a reader sees next. *)
Lemma wrote_remaining b b' l :
  wf b -> wrote b b' l -> wf (set_pos b' (bpos b)) /\ exists rest, remaining (set_pos b' (bpos b)) = l ++ rest.
Proof.
  intros W H. pose proof H as (W1 & S1 & A1 & P1 & L1 & B1 & E1 & _).
  destruct W as (? & ? & ? & ?). destruct W1 as (? & ? & ? & ?).
  split.
  - unfold wf, set_pos, cap in *; cbn [bytes bstart bpos bend]. repeat split; try lia; assumption.
  - unfold remaining, set_pos; cbn [bytes bpos bend].
    replace (bend b' - bpos b)%nat with (length l + (bend b' - bpos b'))%nat by lia.
    rewrite bits_rng_app. rewrite (wrote_bits _ _ _ H). eexists. reflexivity.
Qed.
