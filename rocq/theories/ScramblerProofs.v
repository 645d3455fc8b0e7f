(** The scrambler is the standard's sequence, and undoes itself. *)
From Verif Require Import Base BitsLib BitBuffer BitBufferProofs BitBufferOps Scrambler LmacSpec.
Open Scope N_scope.

Lemma bits_bound x n : (forall k, (n <= k)%nat -> N.testbit x (N.of_nat k) = false) -> x < 2 ^ N.of_nat n.
Proof.
  intros H. destruct (N.lt_ge_cases x (2 ^ N.of_nat n)) as [|L]; [assumption|exfalso]. assert (X : x <> 0) by (intros ->; pose proof (pow2_pos (N.of_nat n)); lia).
  specialize (H (N.to_nat (N.log2 x))). rewrite N2Nat.id, N.bit_log2 in H by assumption. assert (Q : N.of_nat n <= N.log2 x) by (apply N.log2_le_pow2; lia). assert (true = false) by (apply H; lia). discriminate.
Qed.
(** the register [x] holds [s k .. s (k+31)] *)
Definition holds (s : nat -> bool) (k : nat) (x : N) : Prop := x < 2 ^ 32 /\ forall j, (j < 32)%nat -> N.testbit x (N.of_nat j) = s (k + j)%nat.

Definition lfsr_bit (x : N) : bool := fold_left xorb (map (fun i => N.testbit x (N.of_nat (32 - i))) scramb_taps) false.
Lemma next_lfsr_eq x : next_lfsr_bit x = (N.b2n (lfsr_bit x), N.lor (N.shiftr x 1) (N.shiftl (N.b2n (lfsr_bit x)) 31)).
Proof.
  unfold next_lfsr_bit. cbv zeta.
  assert (E : N.land (fold_left (fun a s => N.lxor a (N.shiftr x s)) lfsr_taps 0) 1 = N.b2n (lfsr_bit x)).
  { change 1 with (N.ones 1). rewrite N.land_ones. change (2 ^ 1) with 2. rewrite <- N.bit0_mod. f_equal. cbn [fold_left lfsr_taps]. unfold lfsr_bit, scramb_taps. cbn [fold_left map].
    rewrite !N.lxor_spec, !N.shiftr_spec', N.bits_0. cbn [N.sub Pos.sub_mask N.of_nat Nat.sub]. rewrite !N.add_0_l.
    change (32 - 26) with 6. change (32 - 23) with 9. change (32 - 22) with 10. change (32 - 16) with 16. change (32 - 12) with 20. change (32 - 11) with 21. change (32 - 10) with 22.
    change (32 - 8) with 24. change (32 - 7) with 25. change (32 - 5) with 27. change (32 - 4) with 28. change (32 - 2) with 30. change (32 - 1) with 31.
    change (N.pos (Pos.of_succ_nat 30)) with 31. change (N.pos (Pos.of_succ_nat 29)) with 30. change (N.pos (Pos.of_succ_nat 27)) with 28. change (N.pos (Pos.of_succ_nat 26)) with 27.
    change (N.pos (Pos.of_succ_nat 24)) with 25. change (N.pos (Pos.of_succ_nat 23)) with 24. change (N.pos (Pos.of_succ_nat 21)) with 22. change (N.pos (Pos.of_succ_nat 20)) with 21. change (N.pos (Pos.of_succ_nat 19)) with 20.
    change (N.pos (Pos.of_succ_nat 15)) with 16. change (N.pos (Pos.of_succ_nat 9)) with 10. change (N.pos (Pos.of_succ_nat 8)) with 9. change (N.pos (Pos.of_succ_nat 5)) with 6.
    repeat match goal with |- context [N.testbit x ?i] => generalize (N.testbit x i); intro end.
    repeat match goal with b : bool |- _ => destruct b end; reflexivity. }
  rewrite E. reflexivity.
Qed.
Lemma next_bits x : x < 2 ^ 32 -> snd (next_lfsr_bit x) < 2 ^ 32 /\ forall j, N.testbit (snd (next_lfsr_bit x)) (N.of_nat j) = if (j =? 31)%nat then lfsr_bit x else N.testbit x (N.of_nat (j + 1)).
Proof.
  intros B. rewrite next_lfsr_eq. cbn [snd].
  assert (T : forall j, N.testbit (N.lor (N.shiftr x 1) (N.shiftl (N.b2n (lfsr_bit x)) 31)) (N.of_nat j) = if (j =? 31)%nat then lfsr_bit x else N.testbit x (N.of_nat (j + 1))).
  { intros j. rewrite N.lor_spec, N.shiftr_spec'. replace (N.of_nat j + 1) with (N.of_nat (j + 1)) by lia. destruct (Nat.eqb_spec j 31) as [->|N1].
    - rewrite N.shiftl_spec_high' by lia. change (N.of_nat 31 - 31) with 0. rewrite N.b2n_bit0, (testbit_high x 32) by (assumption || lia). reflexivity.
    - destruct (Nat.lt_ge_cases j 31).
      + rewrite N.shiftl_spec_low by lia. apply orb_false_r.
      + rewrite N.shiftl_spec_high' by lia. rewrite (testbit_high (N.b2n (lfsr_bit x)) 1) by (try lia; destruct (lfsr_bit x); reflexivity). apply orb_false_r. }
  split; [|assumption]. apply (bits_bound _ 32). intros j Hj. rewrite T. destruct (Nat.eqb_spec j 31); [lia|]. apply (testbit_high x 32); [assumption|lia].
Qed.
Lemma holds_next s code k x : is_scramb_seq code s -> holds s k x -> lfsr_bit x = s (k + 32)%nat /\ holds s (k + 1) (snd (next_lfsr_bit x)).
Proof.
  intros (_ & R) (B & H). assert (E : lfsr_bit x = s (k + 32)%nat).
  { rewrite R. unfold lfsr_bit. f_equal. apply map_ext_in. intros i Hi. assert (1 <= i <= 32)%nat by (revert Hi; unfold scramb_taps; cbn; intros Q; repeat (destruct Q as [<-|Q]; [lia|]); contradiction).
    rewrite H by lia. f_equal. lia. }
  split; [assumption|]. destruct (next_bits x B) as (B' & T). split; [assumption|].
  intros j Hj. rewrite T, E. destruct (Nat.eqb_spec j 31) as [->|]; [f_equal; lia|]. rewrite H by lia. f_equal. lia.
Qed.
Lemma holds_init code s : code < 2 ^ 32 -> is_scramb_seq code s -> holds s 0 code.
Proof. intros B (H & _). split; [assumption|]. intros j Hj. symmetry. now apply H. Qed.

(** Existence of the sequence: iterate the register. *)
Fixpoint reg (code : N) (n : nat) : N := match n with O => code | S n => snd (next_lfsr_bit (reg code n)) end.
Definition the_seq (code : N) (j : nat) : bool := N.testbit (reg code (j - 31)) (N.of_nat (Nat.min j 31)).
Lemma reg_step code n : snd (next_lfsr_bit (reg code n)) = reg code (n + 1).
Proof. rewrite Nat.add_1_r. reflexivity. Qed.
Lemma reg_bound code n : code < 2 ^ 32 -> reg code n < 2 ^ 32.
Proof. intros B. induction n as [|n IH]; [assumption|]. cbn [reg]. now apply next_bits. Qed.
Lemma reg_bits code n : code < 2 ^ 32 -> forall j, (j < 32)%nat -> N.testbit (reg code n) (N.of_nat j) = the_seq code (n + j).
Proof.
  intros B. induction n as [|n IH]; intros j Hj.
  - unfold the_seq. replace (0 + j - 31)%nat with 0%nat by lia. cbn [reg]. do 2 f_equal. lia.
  - cbn [reg]. destruct (next_bits (reg code n) (reg_bound code n B)) as (_ & T). destruct (Nat.eqb_spec j 31) as [->|N1].
    + unfold the_seq. replace (S n + 31 - 31)%nat with (S n) by lia. replace (Nat.min (S n + 31) 31) with 31%nat by lia. reflexivity.
    + rewrite T. destruct (Nat.eqb_spec j 31); [lia|]. rewrite IH by lia. f_equal. lia.
Qed.
Lemma the_seq_ok code : code < 2 ^ 32 -> is_scramb_seq code (the_seq code).
Proof.
  intros B. split.
  - intros j Hj. symmetry. exact (reg_bits code 0 B j Hj).
  - intros k. replace (k + 32)%nat with (S k + 31)%nat at 1 by lia. rewrite <- (reg_bits code (S k) B 31) by lia. cbn [reg]. destruct (next_bits (reg code k) (reg_bound code k B)) as (_ & T). rewrite T. cbn [Nat.eqb].
    unfold lfsr_bit. f_equal. apply map_ext_in. intros i Hi. assert (1 <= i <= 32)%nat by (revert Hi; unfold scramb_taps; cbn; intros Q; repeat (destruct Q as [<-|Q]; [lia|]); contradiction).
    rewrite (reg_bits code k B) by lia. f_equal. lia.
Qed.
Lemma seq_unique code s s' : is_scramb_seq code s -> is_scramb_seq code s' -> forall j, s j = s' j.
Proof.
  intros (A1 & A2) (B1 & B2). assert (Q : forall n j, (j < n)%nat -> s j = s' j).
  { induction n as [|n IH]; intros j Hj; [lia|]. destruct (Nat.lt_ge_cases j 32); [rewrite A1, B1 by assumption; reflexivity|]. replace j with (j - 32 + 32)%nat by lia. rewrite A2, B2. f_equal. apply map_ext_in. intros i Hi.
    assert (1 <= i <= 32)%nat by (revert Hi; unfold scramb_taps; cbn; intros Q; repeat (destruct Q as [<-|Q]; [lia|]); contradiction). apply IH. lia. }
  intros j. apply (Q (S j)). lia.
Qed.

(** ** On a buffer *)
Lemma scramb_loop_spec s code : is_scramb_seq code s -> forall n k x b, holds s k x -> wf b -> (bpos b + n <= bend b)%nat ->
  exists b', scramb_loop n x b = Ok b' /\ wf b' /\ bstart b' = bstart b /\ bpos b' = (bpos b + n)%nat /\ bend b' = bend b /\ cap b' = cap b /\ autoexp b' = autoexp b /\
    forall i, bit_at (bytes b') i = xorb (bit_at (bytes b) i) (if ((bpos b <=? i) && (i <? bpos b + n))%nat then s (k + 32 + (i - bpos b))%nat else false).
Proof.
  intros S. induction n as [|n IH]; intros k x b H W L.
  - exists b. cbn [scramb_loop]. split; [reflexivity|]. split; [assumption|]. split; [reflexivity|]. split; [lia|]. do 3 (split; [reflexivity|]). intros i.
    destruct (_ && _)%bool eqn:E; [apply andb_prop in E; destruct E as [E1 E2]; apply Nat.leb_le in E1; apply Nat.ltb_lt in E2; lia|]. now rewrite xorb_false_r.
  - cbn [scramb_loop]. destruct (holds_next s code k x S H) as (E & HN). pose proof (next_lfsr_eq x) as NE. destruct (next_lfsr_bit x) as [bit x'] eqn:EN. cbn [snd] in HN. injection NE as -> Ex'. clear Ex'.
    pose proof W as (W1 & W2 & W3 & W4). destruct (xor_bit_spec b (lfsr_bit x) W) as (b1 & X1 & X2 & X3 & X4 & X5 & X6 & X7); [lia|].
    assert (XA : autoexp b1 = autoexp b).
    { unfold xor_bit in X1. destruct (byte_at _ _); [|discriminate|discriminate]. cbn [bind] in X1. destruct (byte_set _ _ _); [|discriminate|discriminate]. cbn [bind] in X1. injection X1 as <-. reflexivity. }
    rewrite X1. cbn [bind]. assert (WB : wf b1) by (split; [lia|split; [lia|split; [lia|assumption]]]).
    destruct (IH (k + 1)%nat x' b1 HN WB) as (b' & E' & W' & P1 & P2 & P3 & P4 & P5 & P6); [lia|]. exists b'. split; [assumption|]. split; [assumption|]. split; [lia|]. split; [lia|]. split; [lia|]. split; [lia|]. split; [congruence|].
    intros i. rewrite P6, X7, X2. destruct (Nat.eqb_spec i (bpos b)) as [->|NE].
    + replace ((bpos b + 1 <=? bpos b) && (bpos b <? bpos b + 1 + n))%nat with false by (symmetry; apply andb_false_iff; left; apply Nat.leb_gt; lia).
      replace ((bpos b <=? bpos b) && (bpos b <? bpos b + Datatypes.S n))%nat with true by (symmetry; apply andb_true_iff; split; [apply Nat.leb_le; lia|apply Nat.ltb_lt; lia]).
      rewrite xorb_false_r, E. do 2 f_equal. lia.
    + destruct (Nat.leb_spec (bpos b + 1) i), (Nat.leb_spec (bpos b) i), (Nat.ltb_spec i (bpos b + 1 + n)), (Nat.ltb_spec i (bpos b + Datatypes.S n)); cbn [andb]; try reflexivity; try lia. do 2 f_equal. lia.
Qed.

Definition scrambled (b b' : bitbuf) (s : nat -> bool) : Prop :=
  wf b' /\ bstart b' = bstart b /\ bpos b' = bpos b /\ bend b' = bend b /\ cap b' = cap b /\ autoexp b' = autoexp b /\
  forall i, bit_at (bytes b') i = xorb (bit_at (bytes b) i) (if ((bpos b <=? i) && (i <? bend b))%nat then s (32 + (i - bpos b))%nat else false).
Lemma scramb_bits_spec code s b : code < 2 ^ 32 -> is_scramb_seq code s -> wf b -> exists b', scramb_bits code b = Ok b' /\ scrambled b b' s.
Proof.
  intros C S W. pose proof W as (W1 & W2 & W3 & W4). unfold scramb_bits, get_len_remaining, sub_checked. destruct (Nat.leb_spec (bpos b) (bend b)); [|lia]. cbn [bind].
  destruct (scramb_loop_spec s code S (bend b - bpos b) 0 code b (holds_init code s C S) W) as (b1 & E & (V1 & V2 & V3 & V4) & P1 & P2 & P3 & P4 & P5 & P6); [lia|]. rewrite E. cbn [bind]. unfold seek_rel.
  replace ((Z.of_nat (bstart b1) <=? Z.of_nat (bpos b1) + - Z.of_nat (bend b - bpos b)) && (Z.of_nat (bpos b1) + - Z.of_nat (bend b - bpos b) <=? Z.of_nat (bend b1)))%Z with true by (symmetry; apply andb_true_iff; lia).
  cbn [assert bind]. eexists. split; [reflexivity|]. replace (Z.to_nat (Z.of_nat (bpos b1) + - Z.of_nat (bend b - bpos b))) with (bpos b) by lia. unfold scrambled, wf, cap in *. cbn [set_pos bytes bstart bpos bend autoexp].
  split; [split; [lia|split; [lia|split; [lia|assumption]]]|]. split; [assumption|]. split; [reflexivity|]. split; [assumption|]. split; [assumption|]. split; [assumption|]. intros i. rewrite P6. replace (bpos b + (bend b - bpos b))%nat with (bend b) by lia. reflexivity.
Qed.
Lemma combine_app' {A B} (a b : list A) (c d : list B) : length a = length c -> combine (a ++ b) (c ++ d) = combine a c ++ combine b d.
Proof. revert c. induction a as [|x a IH]; intros [|y c] H; try discriminate; [reflexivity|]. cbn [app combine]. f_equal. apply IH. now injection H. Qed.
Lemma scrambled_remaining b b' s : scrambled b b' s -> wf b -> remaining b' = xorl (remaining b) (map (fun k => s (32 + k)%nat) (seq 0 (length (remaining b)))).
Proof.
  intros (W & P1 & P2 & P3 & P4 & P5 & H) (W1 & W2 & _). unfold remaining. rewrite P2, P3, bits_rng_length. unfold xorl, bits_rng. set (n := (bend b - bpos b)%nat). set (p := bpos b) in *.
  assert (E : forall m, (m <= n)%nat -> map (bit_at (bytes b')) (seq p m) = map (fun q : bool * bool => xorb (fst q) (snd q)) (combine (map (bit_at (bytes b)) (seq p m)) (map (fun k => s (32 + k)%nat) (seq 0 m)))).
  { induction m as [|m IH]; intros Hm; [reflexivity|]. rewrite !seq_S, !map_app, IH by lia. rewrite combine_app' by (rewrite !map_length, !seq_length; reflexivity). rewrite map_app. f_equal. cbn [map combine fst snd]. f_equal. rewrite H.
    replace ((p <=? p + m) && (p + m <? bend b))%nat with true by (symmetry; apply andb_true_iff; split; [apply Nat.leb_le; lia|apply Nat.ltb_lt; subst n; lia]). do 2 f_equal. lia. }
  apply E. lia.
Qed.
Lemma bits_eq_bytes l l' : Forall isbyte l -> Forall isbyte l' -> length l = length l' -> (forall i, bit_at l i = bit_at l' i) -> l = l'.
Proof.
  intros F F' L H. apply (nth_ext l l' 0 0 L). intros i Hi. apply N_bits_inj_nat. intros k. destruct (Nat.lt_ge_cases k 8) as [K|K].
  - specialize (H (8 * i + (7 - k))%nat). unfold bit_at in H. replace ((8 * i + (7 - k)) / 8)%nat with i in H by lia. replace (7 - (8 * i + (7 - k)) mod 8)%nat with k in H by lia. assumption.
  - rewrite !isbyte_testbit; auto using isbyte_nth.
Qed.
Lemma scramb_involution code b : code < 2 ^ 32 -> wf b -> exists b', scramb_bits code b = Ok b' /\ wf b' /\ scramb_bits code b' = Ok b.
Proof.
  intros C W. pose proof (the_seq_ok code C) as S. destruct (scramb_bits_spec code (the_seq code) b C S W) as (b1 & E1 & H1). pose proof H1 as (W1 & P1 & P2 & P3 & P4 & P5 & P6).
  destruct (scramb_bits_spec code (the_seq code) b1 C S W1) as (b2 & E2 & (W2 & Q1 & Q2 & Q3 & Q4 & Q5 & Q6)). exists b1. split; [assumption|]. split; [assumption|]. rewrite E2. f_equal.
  assert (EB : bytes b2 = bytes b).
  { apply bits_eq_bytes; [apply W2|apply W|unfold cap in *; lia|]. intros i. rewrite Q6, P6, P2, P3. rewrite xorb_assoc, xorb_nilpotent. apply xorb_false_r. }
  destruct b, b2. cbn in *. congruence.
Qed.

Lemma lor_add x y k : y < 2 ^ k -> N.lor y (x * 2 ^ k) = x * 2 ^ k + y.
Proof.
  intros Hy. apply N.bits_inj. intros n. rewrite N.lor_spec. destruct (N.lt_ge_cases n k) as [L|L].
  - rewrite N.mul_pow2_bits_low by assumption. rewrite orb_false_r. rewrite <- (N.mod_pow2_bits_low (x * 2 ^ k + y) k n) by assumption. rewrite N.add_comm, N.mod_add by (apply N.pow_nonzero; lia). rewrite N.mod_small by assumption. reflexivity.
  - rewrite N.mul_pow2_bits_high by assumption. assert (Y : N.testbit y n = false) by (eapply testbit_high; eassumption). rewrite Y. cbn [orb].
    rewrite <- (N.sub_add k n L) at 2. rewrite <- N.div_pow2_bits. rewrite N.div_add_l by (apply N.pow_nonzero; lia). rewrite N.div_small by assumption. now rewrite N.add_0_r.
Qed.
Lemma scramb_init_val a b c : 1 <= c < 64 -> b < 2 ^ 14 -> a < 2 ^ 10 -> scramb_get_init a b c = ((a * 2 ^ 14 + b) * 2 ^ 6 + c) * 4 + 3.
Proof.
  intros Hc Hb Ha. unfold scramb_get_init. destruct (N.eqb_spec c 0); [lia|]. unfold u32, SCRAMB_INIT. change (2 ^ 32 - 1) with (N.ones 32). rewrite !N.land_ones, !N.shiftl_mul_pow2.
  change (2 ^ 14) with 16384 in *. change (2 ^ 10) with 1024 in *. change (2 ^ 6) with 64. rewrite (N.mod_small (b * 64)) by (change (2 ^ 32) with 4294967296; lia).
  rewrite (N.mod_small (a * 2 ^ 20)) by (change (2 ^ 20) with 1048576; change (2 ^ 32) with 4294967296; lia).
  change 64 with (2 ^ 6) at 1. rewrite (lor_add b c 6) by (change (2 ^ 6) with 64; lia). rewrite (lor_add a (b * 2 ^ 6 + c) 20) by (change (2 ^ 6) with 64; change (2 ^ 20) with 1048576; lia).
  rewrite (N.mod_small (_ * 2 ^ 2)) by (change (2 ^ 6) with 64; change (2 ^ 20) with 1048576; change (2 ^ 2) with 4; change (2 ^ 32) with 4294967296; lia).
  rewrite N.lor_comm. rewrite (lor_add _ 3 2) by reflexivity. change (2 ^ 6) with 64. change (2 ^ 20) with 1048576. change (2 ^ 2) with 4. lia.
Qed.
Lemma scramb_init_inj mcc mnc cc mcc' mnc' cc' : 1 <= cc < 64 -> 1 <= cc' < 64 -> mnc < 2 ^ 14 -> mnc' < 2 ^ 14 -> mcc < 2 ^ 10 -> mcc' < 2 ^ 10 ->
  scramb_get_init mcc mnc cc < 2 ^ 32 /\ (scramb_get_init mcc mnc cc = scramb_get_init mcc' mnc' cc' -> mcc = mcc' /\ mnc = mnc' /\ cc = cc').
Proof.
  intros. rewrite !scramb_init_val by assumption. change (2 ^ 14) with 16384 in *. change (2 ^ 10) with 1024 in *. change (2 ^ 6) with 64. change (2 ^ 32) with 4294967296. lia.
Qed.
