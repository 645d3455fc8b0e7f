(** The CRC: linearity, acceptance of protected blocks, detection of bursts, double and odd errors. *)
From Verif Require Import Base BitsLib LmacSpec Crc16 ErrorControl.
Open Scope N_scope.

Definition sh (x : N) : N := N.lxor (u16 (N.shiftl x 1)) (if N.testbit x 15 then GEN_POLY else 0).
Definition b15 (b : bool) : N := if b then 0x8000 else 0.
Definition crc_run (c : N) (l : list bool) : N := fold_left (fun c b => sh (N.lxor c (b15 b))) l c.

Lemma crc_step_eq c b : crc_step c (N.b2n b) = sh (N.lxor c (b15 b)).
Proof.
  unfold crc_step. replace (u16 (N.shiftl (N.b2n b) 15)) with (b15 b) by (destruct b; reflexivity). cbv zeta. unfold sh.
  set (x := N.lxor c (b15 b)). assert (E : (N.land x 0x8000 =? 0) = negb (N.testbit x 15)).
  { change 0x8000 with (2 ^ 15). destruct (N.testbit x 15) eqn:T.
    - apply N.eqb_neq. intros Q. assert (R : N.testbit (N.land x (2 ^ 15)) 15 = true) by (rewrite N.land_spec, T; reflexivity). rewrite Q in R. discriminate.
    - apply N.eqb_eq. apply N.bits_inj_0. intros n. rewrite N.land_spec, N.pow2_bits_eqb. destruct (N.eqb_spec 15 n) as [<-|]; [now rewrite T|apply andb_false_r]. }
  rewrite E, negb_involutive. destruct (N.testbit x 15); [reflexivity|]. now rewrite N.lxor_0_r.
Qed.
Lemma crc_run_eq c l : fold_left (fun crc b => crc_step crc (N.land b 1)) (map N.b2n l) c = crc_run c l.
Proof. revert c. induction l as [|b l IH]; intros c; [reflexivity|]. cbn [map fold_left]. unfold crc_run. cbn [fold_left]. replace (N.land (N.b2n b) 1) with (N.b2n b) by (destruct b; reflexivity). rewrite crc_step_eq. apply IH. Qed.

Lemma land_lxor a b m : N.land (N.lxor a b) m = N.lxor (N.land a m) (N.land b m).
Proof. apply N.bits_inj. intros n. rewrite !N.land_spec, !N.lxor_spec, !N.land_spec. destruct (N.testbit a n), (N.testbit b n), (N.testbit m n); reflexivity. Qed.
Lemma lxor_4 a b c d : N.lxor (N.lxor a b) (N.lxor c d) = N.lxor (N.lxor a c) (N.lxor b d).
Proof. apply N.bits_inj. intros n. rewrite !N.lxor_spec. destruct (N.testbit a n), (N.testbit b n), (N.testbit c n), (N.testbit d n); reflexivity. Qed.
Lemma sh_lin x y : sh (N.lxor x y) = N.lxor (sh x) (sh y).
Proof.
  unfold sh, u16. rewrite N.shiftl_lxor, land_lxor, lxor_4, N.lxor_spec. f_equal. destruct (N.testbit x 15), (N.testbit y 15); reflexivity.
Qed.
Lemma b15_lin a b : b15 (xorb a b) = N.lxor (b15 a) (b15 b).
Proof. destruct a, b; reflexivity. Qed.
Lemma crc_run_lin : forall l e c d, length l = length e -> crc_run (N.lxor c d) (xorl l e) = N.lxor (crc_run c l) (crc_run d e).
Proof.
  induction l as [|a l IH]; intros [|b e] c d L; try discriminate; [reflexivity|]. unfold crc_run, xorl. cbn [combine map fold_left fst snd]. rewrite b15_lin, lxor_4, sh_lin. apply IH. now injection L.
Qed.
Lemma crc_run_app c l m : crc_run c (l ++ m) = crc_run (crc_run c l) m.
Proof. unfold crc_run. apply fold_left_app. Qed.

(** Iterated shifts. *)
Fixpoint shn (n : nat) (x : N) : N := match n with O => x | S n => shn n (sh x) end.
Lemma shn_0 n : shn n 0 = 0.
Proof. induction n as [|n IH]; [reflexivity|]. exact IH. Qed.
Lemma crc_run_zeros c n : crc_run c (repeat false n) = shn n c.
Proof. revert c. induction n as [|n IH]; intros c; [reflexivity|]. unfold crc_run. cbn [repeat fold_left shn b15]. rewrite N.lxor_0_r. apply IH. Qed.
Lemma sh_bound x : sh x < 2 ^ 16.
Proof.
  unfold sh, u16. change 0xffff with (N.ones 16). rewrite N.land_ones. assert (B : N.shiftl x 1 mod 2 ^ 16 < 2 ^ 16) by (apply N.mod_lt; lia).
  destruct (N.testbit x 15); [|now rewrite N.lxor_0_r]. destruct (N.eq_dec (N.lxor (N.shiftl x 1 mod 2 ^ 16) GEN_POLY) 0) as [E|E]; [rewrite E; reflexivity|].
  apply N.log2_lt_pow2; [lia|]. eapply N.le_lt_trans; [apply N.log2_lxor|]. apply N.max_lub_lt; [|reflexivity].
  destruct (N.eq_dec (N.shiftl x 1 mod 2 ^ 16) 0) as [Z|Z]; [rewrite Z; reflexivity|]. apply N.log2_lt_pow2; [lia|assumption].
Qed.
Lemma sh_zero x : x < 2 ^ 16 -> sh x = 0 -> x = 0.
Proof.
  intros B H. unfold sh, u16 in H. change 0xffff with (N.ones 16) in H. rewrite N.land_ones, N.shiftl_mul_pow2 in H. destruct (N.testbit x 15) eqn:T.
  - exfalso. assert (Q : N.testbit (N.lxor (x * 2 ^ 1 mod 2 ^ 16) GEN_POLY) 0 = true).
    { rewrite N.lxor_spec, N.mod_pow2_bits_low, N.mul_pow2_bits_low by lia. reflexivity. }
    rewrite H in Q. discriminate.
  - rewrite N.lxor_0_r in H. assert (X : x < 2 ^ 15).
    { destruct (N.eq_dec x 0) as [->|NZ]; [reflexivity|]. apply N.log2_lt_pow2; [lia|]. assert (L : N.log2 x < 16) by (apply N.log2_lt_pow2; lia). destruct (N.eq_dec (N.log2 x) 15) as [E|]; [|lia].
      pose proof (N.bit_log2 x NZ) as Q. rewrite E, T in Q. discriminate. }
    rewrite N.mod_small in H by (change (2 ^ 15) with 32768 in X; change (2 ^ 1) with 2; change (2 ^ 16) with 65536; lia). change (2 ^ 1) with 2 in H. lia.
Qed.
Lemma shn_zero n : forall x, x < 2 ^ 16 -> shn n x = 0 -> x = 0.
Proof. induction n as [|n IH]; intros x B H; [assumption|]. cbn [shn] in H. apply sh_zero; [assumption|]. apply IH; [apply sh_bound|assumption]. Qed.
Lemma shn_bound n : forall x, x < 2 ^ 16 -> shn n x < 2 ^ 16.
Proof. induction n as [|n IH]; intros x B; [assumption|]. cbn [shn]. apply IH, sh_bound. Qed.
Lemma shn_lin n : forall x y, shn n (N.lxor x y) = N.lxor (shn n x) (shn n y).
Proof. induction n as [|n IH]; intros x y; [reflexivity|]. cbn [shn]. rewrite sh_lin. apply IH. Qed.

(** Feeding at most 16 bits is XORing them into the register first. *)
Lemma sh_low v k : (1 <= k)%nat -> v < 2 ^ N.of_nat (16 - k) -> (k <= 16)%nat -> sh (N.shiftl v (N.of_nat (k - 1))) = N.shiftl v (N.of_nat k).
Proof.
  intros K V L. unfold sh, u16. change 0xffff with (N.ones 16). rewrite N.land_ones, N.shiftl_shiftl. replace (N.of_nat (k - 1) + 1) with (N.of_nat k) by lia.
  assert (T : N.testbit (N.shiftl v (N.of_nat (k - 1))) 15 = false).
  { rewrite N.shiftl_spec_high' by lia. apply (testbit_high v (N.of_nat (16 - k))); [assumption|lia]. }
  rewrite T, N.lxor_0_r. apply N.mod_small. rewrite N.shiftl_mul_pow2. assert (E16 : 2 ^ 16 = 2 ^ N.of_nat (16 - k) * 2 ^ N.of_nat k) by (rewrite <- N.pow_add_r; f_equal; lia). rewrite E16. apply N.mul_lt_mono_pos_r; [apply pow2_pos|assumption].
Qed.
Lemma crc_run_word : forall l c, (length l <= 16)%nat -> crc_run c l = shn (length l) (N.lxor c (N.shiftl (bits_val l) (N.of_nat (16 - length l)))).
Proof.
  induction l as [|b l IH]; intros c L; [cbn; rewrite N.lxor_0_r; reflexivity|]. cbn [length] in *. unfold crc_run. cbn [fold_left shn]. fold (crc_run (sh (N.lxor c (b15 b))) l). rewrite IH by lia. f_equal.
  rewrite bits_val_cons. set (v := bits_val l). assert (V : v < 2 ^ N.of_nat (length l)) by apply bits_val_bound. set (n := length l) in *.
  assert (E : N.shiftl (N.b2n b * 2 ^ N.of_nat n + v) (N.of_nat (16 - S n)) = N.lxor (b15 b) (N.shiftl v (N.of_nat (16 - S n)))).
  { rewrite !N.shiftl_mul_pow2, N.mul_add_distr_r. rewrite <- N.mul_assoc, <- N.pow_add_r. replace (N.of_nat n + N.of_nat (16 - S n)) with 15 by lia. replace (N.b2n b * 2 ^ 15) with (b15 b) by (destruct b; reflexivity).
    apply N.add_nocarry_lxor. apply N.bits_inj_0. intros i. rewrite N.land_spec. destruct b; [|reflexivity]. change (b15 true) with (2 ^ 15). rewrite N.pow2_bits_eqb. destruct (N.eqb_spec 15 i) as [<-|]; [|reflexivity]. cbn [andb].
    rewrite <- N.shiftl_mul_pow2, N.shiftl_spec_high' by lia. apply (testbit_high v (N.of_nat n)); [assumption|lia]. }
  rewrite E, <- N.lxor_assoc, (sh_lin (N.lxor c (b15 b))). f_equal. replace (16 - S n)%nat with ((16 - n) - 1)%nat by lia. symmetry. apply sh_low; [lia| |lia]. replace (16 - (16 - n))%nat with n by lia. assumption.
Qed.

(** ** Acceptance *)
Definition accepts (l : list bool) : bool := crc_run 0xffff l =? TETRA_CRC_OK.
Lemma protect_accepts m : accepts (m ++ bits_of 16 (not16 (crc_run 0xffff m))) = true.
Proof.
  unfold accepts. rewrite crc_run_app. set (c := crc_run 0xffff m). assert (B : c < 2 ^ 16).
  { subst c. clear. destruct (rev m) as [|b r] eqn:E; [apply (f_equal (@rev bool)) in E; rewrite rev_involutive in E; subst; reflexivity|]. apply (f_equal (@rev bool)) in E. rewrite rev_involutive in E. subst m. cbn [rev]. rewrite crc_run_app. apply sh_bound. }
  rewrite crc_run_word by (rewrite bits_of_length; lia). rewrite bits_of_length, Nat.sub_diag, N.shiftl_0_r. rewrite bits_val_of.
  - unfold not16. rewrite <- N.lxor_assoc, N.lxor_nilpotent, N.lxor_0_l. vm_compute. reflexivity.
  - unfold not16. change (N.of_nat 16) with 16. destruct (N.eq_dec (N.lxor c 0xffff) 0) as [E|E]; [rewrite E; reflexivity|]. apply N.log2_lt_pow2; [lia|]. eapply N.le_lt_trans; [apply N.log2_lxor|]. apply N.max_lub_lt; [|reflexivity].
    destruct (N.eq_dec c 0) as [Z|Z]; [rewrite Z; reflexivity|]. apply N.log2_lt_pow2; [lia|assumption].
Qed.
Lemma crc_bits_bits_of c : crc_bits c = map N.b2n (bits_of 16 c).
Proof.
  unfold crc_bits. change (bits_of 16 c) with (map (fun i => N.testbit c (N.of_nat (15 - i))) (seq 0 16)). rewrite map_map. apply map_ext. intros i.
  change 1 with (N.ones 1). rewrite N.land_ones. change (2 ^ 1) with 2. rewrite <- N.bit0_mod, N.shiftr_spec', N.add_0_l. reflexivity.
Qed.

(** ** Detection *)
Lemma weight_pos l : In true l -> (0 < weight l)%nat.
Proof. induction l as [|b l IH]; intros []; cbn [weight]; [subst; lia|specialize (IH H); lia]. Qed.
Lemma bits_val_0 l : bits_val l = 0 -> ~ In true l.
Proof.
  induction l as [|b l IH]; intros H Hin; [contradiction|]. rewrite bits_val_cons in H. pose proof (pow2_pos (N.of_nat (length l))). destruct b; cbn [N.b2n] in H; [lia|].
  destruct Hin as [Q|Q]; [discriminate|]. apply IH; [lia|assumption].
Qed.
Lemma lxor_same a b : N.lxor a b = a -> b = 0.
Proof. intros H. apply (f_equal (N.lxor a)) in H. rewrite <- N.lxor_assoc, N.lxor_nilpotent, N.lxor_0_l in H. assumption. Qed.
Lemma error_detected m e : length m = length e -> accepts m = true -> crc_run 0 e <> 0 -> accepts (xorl m e) = false.
Proof.
  intros L A E. unfold accepts in *. apply N.eqb_eq in A. apply N.eqb_neq. change 0xffff with (N.lxor 0xffff 0). rewrite crc_run_lin by assumption. rewrite A. intros Q. apply E. exact (lxor_same _ _ Q).
Qed.
Lemma burst_nonzero a burst c : (length burst <= 16)%nat -> In true burst -> crc_run 0 (repeat false a ++ burst ++ repeat false c) <> 0.
Proof.
  intros L I. rewrite !crc_run_app, !crc_run_zeros, shn_0. intros H. assert (B : crc_run 0 burst < 2 ^ 16).
  { rewrite crc_run_word by assumption. apply shn_bound. rewrite N.lxor_0_l, N.shiftl_mul_pow2. assert (E16 : 2 ^ 16 = 2 ^ N.of_nat (length burst) * 2 ^ N.of_nat (16 - length burst)) by (rewrite <- N.pow_add_r; f_equal; lia). rewrite E16. apply N.mul_lt_mono_pos_r; [apply pow2_pos|apply bits_val_bound]. }
  apply shn_zero in H; [|assumption]. rewrite crc_run_word in H by assumption. apply shn_zero in H.
  - rewrite N.lxor_0_l, N.shiftl_eq_0_iff in H. revert I. now apply bits_val_0.
  - rewrite N.lxor_0_l, N.shiftl_mul_pow2. assert (E16 : 2 ^ 16 = 2 ^ N.of_nat (length burst) * 2 ^ N.of_nat (16 - length burst)) by (rewrite <- N.pow_add_r; f_equal; lia). rewrite E16. apply N.mul_lt_mono_pos_r; [apply pow2_pos|apply bits_val_bound].
Qed.

(** Parity *)
Fixpoint parb (n : nat) (x : N) : bool := match n with O => false | S n => xorb (N.testbit x (N.of_nat n)) (parb n x) end.
Definition par (x : N) : bool := parb 16 x.
Lemma parb_lin n x y : parb n (N.lxor x y) = xorb (parb n x) (parb n y).
Proof. induction n as [|n IH]; [reflexivity|]. cbn [parb]. rewrite N.lxor_spec, IH. destruct (N.testbit x _), (N.testbit y _), (parb n x), (parb n y); reflexivity. Qed.
Lemma parb_shl n x : parb (S n) (N.shiftl x 1) = parb n x.
Proof. induction n as [|n IH]; [cbn [parb]; rewrite N.shiftl_spec_low by lia; reflexivity|]. cbn [parb] in *. rewrite <- IH. cbn [parb]. f_equal. rewrite N.shiftl_spec_high' by lia. f_equal. lia. Qed.
Lemma parb_land n x : (n <= 16)%nat -> parb n (N.land x 0xffff) = parb n x.
Proof. intros L. change 0xffff with (N.ones 16). rewrite N.land_ones. induction n as [|n IH]; [reflexivity|]. cbn [parb]. rewrite IH by lia. f_equal. apply N.mod_pow2_bits_low. lia. Qed.
Lemma par_sh x : par (sh x) = par x.
Proof.
  unfold par, sh, u16. rewrite parb_lin, parb_land by lia. change 16%nat with (S 15). rewrite parb_shl. change (parb (S 15) x) with (xorb (N.testbit x 15) (parb 15 x)). destruct (N.testbit x 15).
  - change (parb 16 GEN_POLY) with true. destruct (parb 15 x); reflexivity.
  - change (parb 16 0) with false. destruct (parb 15 x); reflexivity.
Qed.
Lemma par_run l : forall c, par (crc_run c l) = xorb (par c) (Nat.odd (weight l)).
Proof.
  induction l as [|b l IH]; intros c; [change (par c = xorb (par c) false); symmetry; apply xorb_false_r|]. unfold crc_run. cbn [fold_left]. fold (crc_run (sh (N.lxor c (b15 b))) l). rewrite IH, par_sh. unfold par at 1. rewrite parb_lin. fold (par c).
  cbn [weight]. rewrite Nat.odd_add. destruct b; [change (parb 16 (b15 true)) with true; change (Nat.odd 1) with true|change (parb 16 (b15 false)) with false; change (Nat.odd 0) with false]; destruct (par c), (Nat.odd (weight l)); reflexivity.
Qed.
Lemma odd_nonzero e : Nat.odd (weight e) = true -> crc_run 0 e <> 0.
Proof. intros H Q. pose proof (par_run e 0) as P. rewrite Q, H in P. discriminate. Qed.

(** Two errors: the order of the shift on the error syndrome is 32767. *)
Fixpoint never_back (n : nat) (x : N) : bool := match n with O => true | S n => negb (x =? 0x8000) && never_back n (sh x) end.
Definition ORDER : N := 32767.
Lemma never_back_check : never_back (N.to_nat (ORDER - 1)) (sh 0x8000) = true.
Proof. vm_compute. reflexivity. Qed.
Lemma never_back_spec n : forall x d, never_back n x = true -> (d < n)%nat -> shn d x <> 0x8000.
Proof.
  induction n as [|n IH]; intros x d H L; [lia|]. cbn [never_back] in H. apply andb_prop in H. destruct H as [H1 H2]. destruct d as [|d].
  - cbn [shn]. intros ->. discriminate.
  - cbn [shn]. apply (IH (sh x) d H2). lia.
Qed.
Lemma double_nonzero a d c : N.of_nat d < ORDER - 1 -> crc_run 0 (repeat false a ++ true :: repeat false d ++ true :: repeat false c) <> 0.
Proof.
  intros D. rewrite crc_run_app, crc_run_zeros, shn_0. change (true :: repeat false d ++ true :: repeat false c) with ([true] ++ repeat false d ++ [true] ++ repeat false c). rewrite !crc_run_app, !crc_run_zeros. intros H.
  assert (Q : crc_run 0 [true] = sh 0x8000) by reflexivity. rewrite Q in H. clear Q. change (crc_run (shn d (sh 0x8000)) [true]) with (sh (N.lxor (shn d (sh 0x8000)) 0x8000)) in H.
  apply shn_zero in H; [|apply sh_bound]. apply sh_zero in H.
  - apply N.lxor_eq in H. revert H. apply (never_back_spec (N.to_nat (ORDER - 1)) (sh 0x8000) d never_back_check). lia.
  - assert (B : shn d (sh 0x8000) < 2 ^ 16) by apply shn_bound, sh_bound. destruct (N.eq_dec (N.lxor (shn d (sh 0x8000)) 0x8000) 0) as [E|E]; [rewrite E; reflexivity|]. apply N.log2_lt_pow2; [lia|]. eapply N.le_lt_trans; [apply N.log2_lxor|]. apply N.max_lub_lt; [|reflexivity].
    destruct (N.eq_dec (shn d (sh 0x8000)) 0) as [Z|Z]; [rewrite Z; reflexivity|]. apply N.log2_lt_pow2; [lia|assumption].
Qed.
Lemma weight_0 l : weight l = 0%nat -> l = repeat false (length l).
Proof. induction l as [|[] l IH]; cbn [weight length repeat]; intros H; [reflexivity|lia|]. f_equal. apply IH. lia. Qed.
Lemma weight_split l n : weight l = S n -> exists a m, l = repeat false a ++ true :: m /\ weight m = n.
Proof.
  induction l as [|[] l IH]; cbn [weight]; intros H; [discriminate| |].
  - exists 0%nat, l. split; [reflexivity|lia].
  - destruct IH as (a & m & -> & W); [lia|]. exists (S a), m. split; [reflexivity|assumption].
Qed.
Lemma three_nonzero e : (1 <= weight e <= 3)%nat -> N.of_nat (length e) <= ORDER -> crc_run 0 e <> 0.
Proof.
  intros W L. assert (C : (weight e = 1 \/ weight e = 2 \/ weight e = 3)%nat) by lia. destruct C as [E|[E|E]]; [apply odd_nonzero; rewrite E; reflexivity| |apply odd_nonzero; rewrite E; reflexivity].
  destruct (weight_split e 1 E) as (a & m & -> & E2). destruct (weight_split m 0 E2) as (d & r & -> & E3). rewrite (weight_0 r E3). apply double_nonzero. rewrite app_length in L. cbn [length] in L. rewrite app_length in L. cbn [length] in L. rewrite !repeat_length in L. lia.
Qed.
