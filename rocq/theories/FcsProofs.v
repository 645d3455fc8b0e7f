(** The frame check sequence: acceptance of protected messages and detection of bursts. *)
From Verif Require Import Base BitsLib BitBuffer BitBufferProofs LmacSpec Fcs.
Open Scope N_scope.

Definition fsh (x : N) : N := N.lxor (u32 (N.shiftl x 1)) (if N.testbit x 31 then FCS_POLY else 0).
Definition b31 (b : bool) : N := if b then 0x80000000 else 0.
Definition fcs_run (c : N) (l : list bool) : N := fold_left (fun c b => fsh (N.lxor c (b31 b))) l c.

Lemma land_lxor a b m : N.land (N.lxor a b) m = N.lxor (N.land a m) (N.land b m).
Proof. apply N.bits_inj. intros n. rewrite !N.land_spec, !N.lxor_spec, !N.land_spec. destruct (N.testbit a n), (N.testbit b n), (N.testbit m n); reflexivity. Qed.
Lemma lxor_4 a b c d : N.lxor (N.lxor a b) (N.lxor c d) = N.lxor (N.lxor a c) (N.lxor b d).
Proof. apply N.bits_inj. intros n. rewrite !N.lxor_spec. destruct (N.testbit a n), (N.testbit b n), (N.testbit c n), (N.testbit d n); reflexivity. Qed.
Lemma fsh_lin x y : fsh (N.lxor x y) = N.lxor (fsh x) (fsh y).
Proof.
  unfold fsh, u32. rewrite N.shiftl_lxor, land_lxor, lxor_4, N.lxor_spec. f_equal. destruct (N.testbit x 31), (N.testbit y 31); reflexivity.
Qed.
Lemma b31_lin a b : b31 (xorb a b) = N.lxor (b31 a) (b31 b).
Proof. destruct a, b; reflexivity. Qed.
Lemma fcs_run_lin : forall l e c d, length l = length e -> fcs_run (N.lxor c d) (xorl l e) = N.lxor (fcs_run c l) (fcs_run d e).
Proof.
  induction l as [|a l IH]; intros [|b e] c d L; try discriminate; [reflexivity|]. unfold fcs_run, xorl. cbn [combine map fold_left fst snd]. rewrite b31_lin, lxor_4, fsh_lin. apply IH. now injection L.
Qed.
Lemma fcs_run_app c l m : fcs_run c (l ++ m) = fcs_run (fcs_run c l) m.
Proof. unfold fcs_run. apply fold_left_app. Qed.

(** Iterated shifts. *)
Fixpoint fshn (n : nat) (x : N) : N := match n with O => x | S n => fshn n (fsh x) end.
Lemma fshn_0 n : fshn n 0 = 0.
Proof. induction n as [|n IH]; [reflexivity|]. exact IH. Qed.
Lemma fcs_run_zeros c n : fcs_run c (repeat false n) = fshn n c.
Proof. revert c. induction n as [|n IH]; intros c; [reflexivity|]. unfold fcs_run. cbn [repeat fold_left fshn b31]. rewrite N.lxor_0_r. apply IH. Qed.
Lemma fsh_bound x : fsh x < 2 ^ 32.
Proof.
  unfold fsh, u32. change 0xffffffff with (N.ones 32). rewrite N.land_ones. assert (B : N.shiftl x 1 mod 2 ^ 32 < 2 ^ 32) by (apply N.mod_lt; lia).
  destruct (N.testbit x 31); [|now rewrite N.lxor_0_r]. destruct (N.eq_dec (N.lxor (N.shiftl x 1 mod 2 ^ 32) FCS_POLY) 0) as [E|E]; [rewrite E; reflexivity|].
  apply N.log2_lt_pow2; [lia|]. eapply N.le_lt_trans; [apply N.log2_lxor|]. apply N.max_lub_lt; [|reflexivity].
  destruct (N.eq_dec (N.shiftl x 1 mod 2 ^ 32) 0) as [Z|Z]; [rewrite Z; reflexivity|]. apply N.log2_lt_pow2; [lia|assumption].
Qed.
Lemma fsh_zero x : x < 2 ^ 32 -> fsh x = 0 -> x = 0.
Proof.
  intros B H. unfold fsh, u32 in H. change 0xffffffff with (N.ones 32) in H. rewrite N.land_ones, N.shiftl_mul_pow2 in H. destruct (N.testbit x 31) eqn:T.
  - exfalso. assert (Q : N.testbit (N.lxor (x * 2 ^ 1 mod 2 ^ 32) FCS_POLY) 0 = true).
    { rewrite N.lxor_spec, N.mod_pow2_bits_low, N.mul_pow2_bits_low by lia. reflexivity. }
    rewrite H in Q. discriminate.
  - rewrite N.lxor_0_r in H. assert (X : x < 2 ^ 31).
    { destruct (N.eq_dec x 0) as [->|NZ]; [reflexivity|]. apply N.log2_lt_pow2; [lia|]. assert (L : N.log2 x < 32) by (apply N.log2_lt_pow2; lia). destruct (N.eq_dec (N.log2 x) 31) as [E|]; [|lia].
      pose proof (N.bit_log2 x NZ) as Q. rewrite E, T in Q. discriminate. }
    rewrite N.mod_small in H by (change (2 ^ 31) with 2147483648 in X; change (2 ^ 1) with 2; change (2 ^ 32) with 4294967296; lia). change (2 ^ 1) with 2 in H. lia.
Qed.
Lemma fshn_zero n : forall x, x < 2 ^ 32 -> fshn n x = 0 -> x = 0.
Proof. induction n as [|n IH]; intros x B H; [assumption|]. cbn [fshn] in H. apply fsh_zero; [assumption|]. apply IH; [apply fsh_bound|assumption]. Qed.
Lemma fshn_bound n : forall x, x < 2 ^ 32 -> fshn n x < 2 ^ 32.
Proof. induction n as [|n IH]; intros x B; [assumption|]. cbn [fshn]. apply IH, fsh_bound. Qed.
Lemma fshn_lin n : forall x y, fshn n (N.lxor x y) = N.lxor (fshn n x) (fshn n y).
Proof. induction n as [|n IH]; intros x y; [reflexivity|]. cbn [fshn]. rewrite fsh_lin. apply IH. Qed.

(** Feeding at most 32 bits is XORing them into the register first. *)
Lemma fsh_low v k : (1 <= k)%nat -> v < 2 ^ N.of_nat (32 - k) -> (k <= 32)%nat -> fsh (N.shiftl v (N.of_nat (k - 1))) = N.shiftl v (N.of_nat k).
Proof.
  intros K V L. unfold fsh, u32. change 0xffffffff with (N.ones 32). rewrite N.land_ones, N.shiftl_shiftl. replace (N.of_nat (k - 1) + 1) with (N.of_nat k) by lia.
  assert (T : N.testbit (N.shiftl v (N.of_nat (k - 1))) 31 = false).
  { rewrite N.shiftl_spec_high' by lia. apply (testbit_high v (N.of_nat (32 - k))); [assumption|lia]. }
  rewrite T, N.lxor_0_r. apply N.mod_small. rewrite N.shiftl_mul_pow2. assert (E32 : 2 ^ 32 = 2 ^ N.of_nat (32 - k) * 2 ^ N.of_nat k) by (rewrite <- N.pow_add_r; f_equal; lia). rewrite E32. apply N.mul_lt_mono_pos_r; [apply pow2_pos|assumption].
Qed.
Lemma fcs_run_word : forall l c, (length l <= 32)%nat -> fcs_run c l = fshn (length l) (N.lxor c (N.shiftl (bits_val l) (N.of_nat (32 - length l)))).
Proof.
  induction l as [|b l IH]; intros c L; [cbn; rewrite N.lxor_0_r; reflexivity|]. cbn [length] in *. unfold fcs_run. cbn [fold_left fshn]. fold (fcs_run (fsh (N.lxor c (b31 b))) l). rewrite IH by lia. f_equal.
  rewrite bits_val_cons. set (v := bits_val l). assert (V : v < 2 ^ N.of_nat (length l)) by apply bits_val_bound. set (n := length l) in *.
  assert (E : N.shiftl (N.b2n b * 2 ^ N.of_nat n + v) (N.of_nat (32 - S n)) = N.lxor (b31 b) (N.shiftl v (N.of_nat (32 - S n)))).
  { rewrite !N.shiftl_mul_pow2, N.mul_add_distr_r. rewrite <- N.mul_assoc, <- N.pow_add_r. replace (N.of_nat n + N.of_nat (32 - S n)) with 31 by lia. replace (N.b2n b * 2 ^ 31) with (b31 b) by (destruct b; reflexivity).
    apply N.add_nocarry_lxor. apply N.bits_inj_0. intros i. rewrite N.land_spec. destruct b; [|reflexivity]. change (b31 true) with (2 ^ 31). rewrite N.pow2_bits_eqb. destruct (N.eqb_spec 31 i) as [<-|]; [|reflexivity]. cbn [andb].
    rewrite <- N.shiftl_mul_pow2, N.shiftl_spec_high' by lia. apply (testbit_high v (N.of_nat n)); [assumption|lia]. }
  rewrite E, <- N.lxor_assoc, (fsh_lin (N.lxor c (b31 b))). f_equal. replace (32 - S n)%nat with ((32 - n) - 1)%nat by lia. symmetry. apply fsh_low; [lia| |lia]. replace (32 - (32 - n))%nat with n by lia. assumption.
Qed.

Lemma bits_val_0 l : bits_val l = 0 -> ~ In true l.
Proof.
  induction l as [|b l IH]; intros H Hin; [contradiction|]. rewrite bits_val_cons in H. pose proof (pow2_pos (N.of_nat (length l))). destruct b; cbn [N.b2n] in H; [lia|].
  destruct Hin as [Q|Q]; [discriminate|]. apply IH; [lia|assumption].
Qed.
Lemma lxor_same a b : N.lxor a b = a -> b = 0.
Proof. intros H. apply (f_equal (N.lxor a)) in H. rewrite <- N.lxor_assoc, N.lxor_nilpotent, N.lxor_0_l in H. assumption. Qed.
Lemma burst_nonzero a burst c : (length burst <= 32)%nat -> In true burst -> fcs_run 0 (repeat false a ++ burst ++ repeat false c) <> 0.
Proof.
  intros L I. rewrite !fcs_run_app, !fcs_run_zeros, fshn_0. intros H. assert (B : fcs_run 0 burst < 2 ^ 32).
  { rewrite fcs_run_word by assumption. apply fshn_bound. rewrite N.lxor_0_l, N.shiftl_mul_pow2. assert (E32 : 2 ^ 32 = 2 ^ N.of_nat (length burst) * 2 ^ N.of_nat (32 - length burst)) by (rewrite <- N.pow_add_r; f_equal; lia). rewrite E32. apply N.mul_lt_mono_pos_r; [apply pow2_pos|apply bits_val_bound]. }
  apply fshn_zero in H; [|assumption]. rewrite fcs_run_word in H by assumption. apply fshn_zero in H.
  - rewrite N.lxor_0_l, N.shiftl_eq_0_iff in H. revert I. now apply bits_val_0.
  - rewrite N.lxor_0_l, N.shiftl_mul_pow2. assert (E32 : 2 ^ 32 = 2 ^ N.of_nat (length burst) * 2 ^ N.of_nat (32 - length burst)) by (rewrite <- N.pow_add_r; f_equal; lia). rewrite E32. apply N.mul_lt_mono_pos_r; [apply pow2_pos|apply bits_val_bound].
Qed.

Lemma fcs_step_eq c b : fcs_step c (N.b2n b) = fsh (N.lxor c (b31 b)).
Proof.
  unfold fcs_step, fsh. assert (E : N.land (N.lxor (N.b2n b) (N.shiftr c 31)) 1 = N.b2n (N.testbit (N.lxor c (b31 b)) 31)).
  { change 1 with (N.ones 1) at 1. rewrite N.land_ones. change (2 ^ 1) with 2. rewrite <- N.bit0_mod, N.lxor_spec, N.shiftr_spec', N.add_0_l, N.lxor_spec.
    destruct b; cbn [b31]; destruct (N.testbit c 31); reflexivity. }
  cbv zeta. rewrite E. assert (U : u32 (N.shiftl (N.lxor c (b31 b)) 1) = u32 (N.shiftl c 1)).
  { unfold u32. rewrite N.shiftl_lxor, land_lxor. destruct b; [change (N.land (N.shiftl (b31 true) 1) 0xffffffff) with 0|change (N.land (N.shiftl (b31 false) 1) 0xffffffff) with 0]; apply N.lxor_0_r. }
  rewrite U. destruct (N.testbit (N.lxor c (b31 b)) 31); cbn [N.b2n]; [reflexivity|]. rewrite N.lxor_0_r. reflexivity.
Qed.
Lemma fsh_bound_run l : forall c, c < 2 ^ 32 -> fcs_run c l < 2 ^ 32.
Proof. induction l as [|b l IH]; intros c B; [assumption|]. unfold fcs_run. cbn [fold_left]. apply IH, fsh_bound. Qed.

(** The sequence as a function of the message. *)
Definition fcs_init (n : nat) : N := if (n <? 32)%nat then u32 (N.shiftl 0xffffffff (N.of_nat (32 - n))) else 0xffffffff.
Definition fcs_of (m : list bool) : N := N.lxor (fcs_run (fcs_init (length m)) m) 0xffffffff.

Lemma init_bound n : fcs_init n < 2 ^ 32.
Proof.
  unfold fcs_init, u32. destruct (n <? 32)%nat; [|reflexivity]. change 0xffffffff with (N.ones 32) at 2. rewrite N.land_ones. apply N.mod_lt. discriminate.
Qed.
Lemma lxor_bound32 a b : a < 2 ^ 32 -> b < 2 ^ 32 -> N.lxor a b < 2 ^ 32.
Proof.
  intros A B. destruct (N.eq_dec (N.lxor a b) 0) as [E|E]; [rewrite E; reflexivity|]. apply N.log2_lt_pow2; [lia|]. eapply N.le_lt_trans; [apply N.log2_lxor|].
  apply N.max_lub_lt; [destruct (N.eq_dec a 0) as [->|]; [reflexivity|]|destruct (N.eq_dec b 0) as [->|]; [reflexivity|]]; apply N.log2_lt_pow2; lia.
Qed.
Lemma fcs_of_bound m : fcs_of m < 2 ^ 32.
Proof. unfold fcs_of. apply lxor_bound32; [|reflexivity]. apply fsh_bound_run, init_bound. Qed.

Lemma bits_rng_S l p n : bits_rng l p (S n) = bits_rng l p 1 ++ bits_rng l (p + 1) n.
Proof. rewrite <- bits_rng_app. reflexivity. Qed.
Lemma fcs_loop_spec b : wf b -> forall n pos crc, (bstart b + pos + n <= bend b)%nat ->
  fcs_loop b n pos crc = Ok (fcs_run crc (bits_rng (bytes b) (bstart b + pos) n)).
Proof.
  intros W. induction n as [|n IH]; intros pos crc L; [reflexivity|]. cbn [fcs_loop]. rewrite peek_startoffset_spec by (assumption || lia).
  destruct (Nat.leb_spec (bstart b + pos + 1) (bend b)) as [_|]; [|lia]. cbn [bind unwrap]. rewrite (bits_rng_S (bytes b) (bstart b + pos) n).
  pose proof (bits_rng_length (bytes b) (bstart b + pos) 1) as L1. destruct (bits_rng (bytes b) (bstart b + pos) 1) as [|x [|]] eqn:E; try discriminate L1.
  assert (V : bits_val [x] = N.b2n x) by (destruct x; reflexivity). rewrite V, fcs_step_eq. cbn [app]. unfold fcs_run. cbn [fold_left].
  rewrite (IH (S pos)) by lia. unfold fcs_run. do 3 f_equal. lia.
Qed.
Lemma compute_fcs_spec b start n : wf b -> (0 < n)%nat -> (bstart b + start + n <= bend b)%nat ->
  compute_fcs b start (start + n) = Ok (fcs_of (bits_rng (bytes b) (bstart b + start) n)).
Proof.
  intros W N0 L. unfold compute_fcs, get_len, sub_checked. destruct (Nat.leb_spec start (start + n)) as [_|]; [|lia]. cbn [assert bind].
  destruct W as (W1 & W2 & W3). destruct (Nat.leb_spec (bstart b) (bend b)) as [_|]; [|lia]. cbn [bind].
  destruct (Nat.leb_spec (start + n) (bend b - bstart b)) as [_|]; [|lia]. cbn [assert bind].
  replace (start + n - start)%nat with n by lia. assert (I : (if (n <? 32)%nat then if (n =? 0)%nat then Panic else Ok (u32 (N.shiftl 4294967295 (N.of_nat (32 - n)))) else Ok 4294967295) = Ok (fcs_init n)).
  { unfold fcs_init. destruct (n <? 32)%nat; [|reflexivity]. destruct (Nat.eqb_spec n 0) as [|_]; [lia|reflexivity]. }
  rewrite I. cbn [bind]. rewrite fcs_loop_spec by (unfold wf; tauto || lia). cbn [bind]. unfold fcs_of. rewrite bits_rng_length. reflexivity.
Qed.
Lemma check_fcs_spec b m f : wf b -> remaining b = m ++ f -> length f = 32%nat -> (0 < length m)%nat ->
  check_fcs b = Ok (fcs_of m =? bits_val f).
Proof.
  intros W R F M. assert (W0 := W). destruct W as (W1 & W2 & W3). assert (LR : (bend b - bpos b = length m + 32)%nat).
  { assert (Q : length (remaining b) = (bend b - bpos b)%nat) by apply bits_rng_length. rewrite R, app_length, F in Q. lia. }
  unfold check_fcs, get_len_remaining, get_pos, get_len, sub_checked. destruct (Nat.leb_spec (bpos b) (bend b)) as [_|]; [|lia]. cbn [bind].
  destruct (Nat.ltb_spec (bend b - bpos b) 32) as [|_]; [lia|]. destruct (Nat.leb_spec (bstart b) (bpos b)) as [_|]; [|lia]. destruct (Nat.leb_spec (bstart b) (bend b)) as [_|]; [|lia]. cbn [bind].
  replace (bend b - bstart b - 32)%nat with ((bpos b - bstart b) + length m)%nat by lia.
  rewrite compute_fcs_spec by (assumption || lia). cbn [bind]. rewrite peek_startoffset_spec by (assumption || lia).
  destruct (Nat.leb_spec (bstart b + (bpos b - bstart b + length m) + 32) (bend b)) as [_|]; [|lia]. cbn [bind unwrap].
  assert (S1 : remaining b = bits_rng (bytes b) (bpos b) (length m) ++ bits_rng (bytes b) (bpos b + length m) 32).
  { unfold remaining. rewrite LR. apply bits_rng_app. }
  rewrite R in S1. assert (E1 : m = bits_rng (bytes b) (bpos b) (length m)).
  { apply (f_equal (firstn (length m))) in S1. rewrite !firstn_app, bits_rng_length, Nat.sub_diag, !firstn_O, !app_nil_r, firstn_all in S1. rewrite firstn_all2 in S1 by (rewrite bits_rng_length; lia). exact S1. }
  assert (E2 : f = bits_rng (bytes b) (bpos b + length m) 32).
  { rewrite <- E1 in S1. exact (app_inv_head _ _ _ S1). }
  replace (bstart b + (bpos b - bstart b))%nat with (bpos b) by lia. replace (bstart b + (bpos b - bstart b + length m))%nat with (bpos b + length m)%nat by lia.
  rewrite <- E1, <- E2. reflexivity.
Qed.

(** A protected message is accepted if and only if running over all of it leaves the residue. *)
Definition residue : N := fshn 32 0xffffffff.
Lemma fsh_run_word32 c f : length f = 32%nat -> fcs_run c f = fshn 32 (N.lxor c (bits_val f)).
Proof. intros F. rewrite fcs_run_word by lia. rewrite F, Nat.sub_diag. change (N.of_nat 0) with 0. rewrite N.shiftl_0_r. reflexivity. Qed.
Lemma accept_iff m f : length f = 32%nat -> (fcs_of m =? bits_val f) = true <-> fcs_run (fcs_init (length m)) (m ++ f) = residue.
Proof.
  intros F. rewrite fcs_run_app. rewrite fsh_run_word32 by assumption. unfold fcs_of, residue. set (c := fcs_run (fcs_init (length m)) m).
  assert (C : c < 2 ^ 32) by apply fsh_bound_run, init_bound. assert (FB : bits_val f < 2 ^ 32) by (pose proof (bits_val_bound f) as Q; rewrite F in Q; exact Q).
  split; intros H.
  - apply N.eqb_eq in H. f_equal. rewrite <- H, <- N.lxor_assoc, N.lxor_nilpotent. apply N.lxor_0_l.
  - apply N.eqb_eq. assert (Z : N.lxor (N.lxor c (bits_val f)) 0xffffffff = 0).
    { apply (fshn_zero 32); [apply lxor_bound32; [apply lxor_bound32; assumption|reflexivity]|]. rewrite fshn_lin, H. apply N.lxor_nilpotent. }
    apply N.lxor_eq in Z. rewrite <- Z, <- N.lxor_assoc, N.lxor_nilpotent. apply N.lxor_0_l.
Qed.

Lemma xorl_length a b : length a = length b -> length (xorl a b) = length a.
Proof. intros L. unfold xorl. rewrite map_length, combine_length. lia. Qed.
Lemma fcs_accepts m : m <> [] -> exists v, v < 2 ^ 32 /\
  (forall b start, wf b -> (bstart b + start + length m <= bend b)%nat -> bits_rng (bytes b) (bstart b + start) (length m) = m -> compute_fcs b start (start + length m) = Ok v) /\
  (forall b, wf b -> remaining b = m ++ bits_of 32 v -> check_fcs b = Ok true).
Proof.
  intros NE. assert (L : (0 < length m)%nat) by (destruct m; [contradiction|cbn; lia]). exists (fcs_of m). split; [apply fcs_of_bound|]. split.
  - intros b start W B E. rewrite compute_fcs_spec by assumption. rewrite E. reflexivity.
  - intros b W R. rewrite (check_fcs_spec b m (bits_of 32 (fcs_of m)) W R (bits_of_length 32 _) L). rewrite bits_val_of by apply fcs_of_bound. rewrite N.eqb_refl. reflexivity.
Qed.
Lemma fcs_rejects b b' e : wf b -> wf b' -> (32 < length (remaining b))%nat -> check_fcs b = Ok true ->
  length e = length (remaining b) -> remaining b' = xorl (remaining b) e ->
  (exists a burst c, e = repeat false a ++ burst ++ repeat false c /\ (length burst <= 32)%nat /\ In true burst) ->
  check_fcs b' = Ok false.
Proof.
  intros W W' L A LE R (a & burst & c & E & LB & IB). set (n := (length (remaining b) - 32)%nat).
  set (l := remaining b) in *. set (m := firstn n l). set (f := skipn n l).
  assert (Hl : l = m ++ f) by (symmetry; apply firstn_skipn). assert (Hm : length m = n) by (unfold m; rewrite firstn_length; lia). assert (Hf : length f = 32%nat) by (unfold f; rewrite skipn_length; lia).
  set (l' := xorl l e) in *. set (m' := firstn n l'). set (f' := skipn n l'). assert (Ll' : length l' = length l) by (apply xorl_length; lia).
  assert (Hl' : l' = m' ++ f') by (symmetry; apply firstn_skipn). assert (Hm' : length m' = n) by (unfold m'; rewrite firstn_length; lia). assert (Hf' : length f' = 32%nat) by (unfold f'; rewrite skipn_length; lia).
  rewrite (check_fcs_spec b m f W Hl Hf) in A by lia.
  rewrite (check_fcs_spec b' m' f' W' (eq_trans R Hl') Hf') by lia. f_equal.
  assert (A' : (fcs_of m =? bits_val f) = true) by congruence. apply accept_iff in A'; [|assumption]. rewrite <- Hl in A'.
  apply not_true_iff_false. intros Q. apply accept_iff in Q; [|assumption]. rewrite <- Hl' in Q. rewrite Hm' in Q. rewrite Hm in A'.
  unfold l' in Q. rewrite <- (N.lxor_0_r (fcs_init n)) in Q. rewrite fcs_run_lin in Q by lia. rewrite A' in Q. apply lxor_same in Q. revert Q. rewrite E. apply burst_nonzero; assumption.
Qed.
Lemma fcs_short b : wf b -> (length (remaining b) < 32)%nat -> check_fcs b = Ok false.
Proof.
  intros (W1 & W2 & W3) L. unfold remaining in L. rewrite bits_rng_length in L. unfold check_fcs, get_len_remaining, sub_checked. destruct (Nat.leb_spec (bpos b) (bend b)) as [_|]; [|lia]. cbn [bind].
  destruct (Nat.ltb_spec (bend b - bpos b) 32) as [_|]; [reflexivity|lia].
Qed.
Lemma fcs_no_message b : wf b -> length (remaining b) = 32%nat -> check_fcs b = Panic.
Proof.
  intros (W1 & W2 & W3) L. unfold remaining in L. rewrite bits_rng_length in L. unfold check_fcs, get_len_remaining, get_pos, get_len, compute_fcs, get_len, sub_checked. destruct (Nat.leb_spec (bpos b) (bend b)) as [_|]; [|lia]. cbn [bind].
  destruct (Nat.ltb_spec (bend b - bpos b) 32) as [|_]; [lia|]. destruct (Nat.leb_spec (bstart b) (bpos b)) as [_|]; [|lia]. destruct (Nat.leb_spec (bstart b) (bend b)) as [_|]; [|lia]. cbn [bind].
  destruct (Nat.leb_spec (bpos b - bstart b) (bend b - bstart b - 32)) as [_|]; [|lia]. cbn [assert bind]. destruct (Nat.leb_spec (bend b - bstart b - 32) (bend b - bstart b)) as [_|]; [|lia]. cbn [assert bind].
  replace (bend b - bstart b - 32 - (bpos b - bstart b))%nat with 0%nat by lia. reflexivity.
Qed.
