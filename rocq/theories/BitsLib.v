(** Bit strings (most significant bit first) and numbers. *)
From Verif Require Import Base.
Open Scope N_scope.

(** Big-endian value of a bit string. *)
Definition bits_val (l : list bool) : N := fold_left (fun a (x : bool) => 2 * a + N.b2n x) l 0.

(** The [n] low bits of [v], most significant first. *)
Fixpoint bits_of (n : nat) (v : N) : list bool :=
  match n with
  | O => []
  | S n' => N.testbit v (N.of_nat n') :: bits_of n' v
  end.

Lemma bits_of_length n v : length (bits_of n v) = n.
Proof. induction n; cbn [bits_of length]; congruence. Qed.


Lemma fold_bits_acc l a :
  fold_left (fun a (x : bool) => 2 * a + N.b2n x) l a = a * 2 ^ N.of_nat (length l) + bits_val l.
Proof.
  unfold bits_val. revert a. induction l as [|x t IH]; intros a.
  - cbn. lia.
  - cbn [fold_left length]. rewrite IH, (IH (2 * 0 + N.b2n x)).
    rewrite Nat2N.inj_succ, N.pow_succ_r'. lia.
Qed.

Lemma bits_val_cons x l : bits_val (x :: l) = N.b2n x * 2 ^ N.of_nat (length l) + bits_val l.
Proof. unfold bits_val at 1. cbn [fold_left]. rewrite fold_bits_acc. f_equal. Qed.

Lemma bits_val_nil : bits_val [] = 0.
Proof. reflexivity. Qed.

Lemma bits_val_app l1 l2 : bits_val (l1 ++ l2) = bits_val l1 * 2 ^ N.of_nat (length l2) + bits_val l2.
Proof. unfold bits_val at 1. rewrite fold_left_app. apply fold_bits_acc. Qed.

Lemma bits_val_bound l : bits_val l < 2 ^ N.of_nat (length l).
Proof.
  induction l as [|x t IH].
  - cbn. lia.
  - rewrite bits_val_cons. cbn [length]. rewrite Nat2N.inj_succ, N.pow_succ_r'. destruct x; cbn [N.b2n]; lia.
Qed.

Lemma pow2_pos n : 0 < 2 ^ n.
Proof. apply N.neq_0_lt_0, N.pow_nonzero. lia. Qed.

Lemma testbit_high v n k : v < 2 ^ n -> n <= k -> N.testbit v k = false.
Proof.
  intros Hv Hk. destruct (N.eq_dec v 0) as [->|Hz]; [apply N.bits_0|].
  apply N.bits_above_log2. apply N.log2_lt_pow2; [lia|].
  eapply N.lt_le_trans; [exact Hv|]. apply N.pow_le_mono_r; lia.
Qed.

Lemma testbit_bits_val l k :
  N.testbit (bits_val l) (N.of_nat k) = if (k <? length l)%nat then nth (length l - 1 - k) l false else false.
Proof.
  revert k. induction l as [|x t IH]; intros k.
  - cbn [length]. destruct (Nat.ltb_spec k 0); [lia|]. rewrite bits_val_nil. apply N.bits_0.
  - rewrite bits_val_cons. cbn [length].
    destruct (Nat.ltb_spec k (length t)) as [Hk|Hk].
    + destruct (Nat.ltb_spec k (S (length t))); [|lia].
      replace (S (length t) - 1 - k)%nat with (S (length t - 1 - k)) by lia. cbn [nth].
      rewrite <- (N.mod_pow2_bits_low _ (N.of_nat (length t))) by lia.
      rewrite N.add_comm, N.mod_add by (apply N.pow_nonzero; lia).
      rewrite N.mod_small by apply bits_val_bound.
      rewrite IH. destruct (Nat.ltb_spec k (length t)); [reflexivity|lia].
    + replace (N.of_nat k) with (N.of_nat (k - length t) + N.of_nat (length t)) by lia.
      rewrite <- N.div_pow2_bits.
      rewrite N.div_add_l by (apply N.pow_nonzero; lia).
      rewrite N.div_small by apply bits_val_bound. rewrite N.add_0_r.
      destruct (Nat.ltb_spec k (S (length t))).
      * assert (k = length t) as -> by lia.
        replace (length t - length t)%nat with 0%nat by lia.
        replace (S (length t) - 1 - length t)%nat with 0%nat by lia.
        cbn [nth]. destruct x; reflexivity.
      * apply testbit_high with (n := 1); [destruct x; cbn; lia|lia].
Qed.

Lemma nth_bits_of n v i d : (i < n)%nat -> nth i (bits_of n v) d = N.testbit v (N.of_nat (n - 1 - i)).
Proof.
  revert i. induction n as [|n IH]; intros i Hi; [lia|].
  destruct i as [|i]; cbn [bits_of nth].
  - f_equal. f_equal. lia.
  - rewrite IH by lia. f_equal. f_equal. lia.
Qed.

Lemma bits_of_ext n v w :
  (forall k, (k < n)%nat -> N.testbit v (N.of_nat k) = N.testbit w (N.of_nat k)) -> bits_of n v = bits_of n w.
Proof.
  induction n as [|n IH]; intros H; [reflexivity|].
  cbn [bits_of]. rewrite H by lia. f_equal. apply IH. intros k Hk. apply H. lia.
Qed.

Lemma map_seq_bits_of (f : nat -> bool) p n v :
  (forall i, (i < n)%nat -> f (p + i)%nat = N.testbit v (N.of_nat (n - 1 - i))) ->
  map f (seq p n) = bits_of n v.
Proof.
  revert p. induction n as [|n IH]; intros p H; [reflexivity|].
  cbn [seq map bits_of]. f_equal.
  - rewrite <- (Nat.add_0_r p). rewrite H by lia. f_equal. f_equal. lia.
  - apply IH. intros i Hi. replace (S p + i)%nat with (p + S i)%nat by lia.
    rewrite H by lia. f_equal. f_equal. lia.
Qed.

Lemma bits_of_val l : bits_of (length l) (bits_val l) = l.
Proof.
  apply nth_ext with (d := false) (d' := false); [apply bits_of_length|].
  intros i Hi. rewrite bits_of_length in Hi. rewrite nth_bits_of by lia.
  rewrite testbit_bits_val. destruct (Nat.ltb_spec (length l - 1 - i) (length l)); [|lia].
  f_equal. lia.
Qed.

Lemma bits_of_val' l n : length l = n -> bits_of n (bits_val l) = l.
Proof. intros <-. apply bits_of_val. Qed.

Lemma N_bits_inj_nat v w : (forall k, N.testbit v (N.of_nat k) = N.testbit w (N.of_nat k)) -> v = w.
Proof. intros H. apply N.bits_inj. intros k. rewrite <- (N2Nat.id k). apply H. Qed.

Lemma bits_val_of_mod n v : bits_val (bits_of n v) = v mod 2 ^ N.of_nat n.
Proof.
  apply N_bits_inj_nat. intros k. rewrite testbit_bits_val, bits_of_length.
  destruct (Nat.ltb_spec k n) as [Hk|Hk].
  - rewrite N.mod_pow2_bits_low by lia. rewrite nth_bits_of by lia. f_equal. f_equal. lia.
  - rewrite N.mod_pow2_bits_high by lia. reflexivity.
Qed.

Lemma bits_val_of n v : v < 2 ^ N.of_nat n -> bits_val (bits_of n v) = v.
Proof. intros H. rewrite bits_val_of_mod. apply N.mod_small, H. Qed.

Lemma bits_of_app n m v : bits_of (n + m) v = bits_of n (N.shiftr v (N.of_nat m)) ++ bits_of m v.
Proof.
  induction n as [|n IH]; [reflexivity|].
  cbn [Nat.add bits_of app]. rewrite IH. f_equal.
  rewrite N.shiftr_spec'. f_equal. lia.
Qed.

Lemma bits_of_inj n v w :
  v < 2 ^ N.of_nat n -> w < 2 ^ N.of_nat n -> bits_of n v = bits_of n w -> v = w.
Proof. intros Hv Hw E. rewrite <- (bits_val_of n v), <- (bits_val_of n w) by assumption. now rewrite E. Qed.

Lemma bits_of_0 n : bits_of n 0 = repeat false n.
Proof. induction n as [|n IH]; cbn [bits_of repeat]; [reflexivity|]. rewrite N.bits_0, IH. reflexivity. Qed.

Lemma bits_of_1_b2n x : bits_of 1 (N.b2n x) = [x].
Proof. destruct x; reflexivity. Qed.

(** ** Shift and mask facts about the code's word arithmetic *)

Lemma ones_ones k : (N.shiftl 1 (N.of_nat k) - 1) = N.ones (N.of_nat k).
Proof. rewrite N.shiftl_1_l. rewrite N.ones_equiv. lia. Qed.

Lemma skipn_seq' p n k : skipn k (seq p n) = seq (p + k) (n - k).
Proof.
  revert p k; induction n as [|n IH]; intros p k; [now rewrite skipn_nil|].
  destruct k as [|k]; cbn [skipn seq Nat.sub]; [now rewrite Nat.add_0_r|].
  rewrite IH. f_equal. lia.
Qed.

Lemma firstn_seq' p n k : firstn k (seq p n) = seq p (Nat.min k n).
Proof.
  revert p k; induction n as [|n IH]; intros p k; [rewrite Nat.min_0_r; now rewrite firstn_nil|].
  destruct k as [|k]; cbn [firstn seq Nat.min]; [reflexivity|].
  rewrite IH. reflexivity.
Qed.

Lemma skipn_skipn' {A} (l : list A) x y : skipn x (skipn y l) = skipn (y + x) l.
Proof.
  revert l. induction y as [|y IH]; intros l; cbn [skipn Nat.add]; [reflexivity|].
  destruct l; [now rewrite !skipn_nil|apply IH].
Qed.
