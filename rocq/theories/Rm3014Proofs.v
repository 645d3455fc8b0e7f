(** The (30,14) Reed-Muller code: every message is recovered with up to one flipped bit. *)
From Verif Require Import Base BitsLib Rm3014.
Open Scope N_scope.

Lemma lxor_4' a b c d : N.lxor (N.lxor a b) (N.lxor c d) = N.lxor (N.lxor a c) (N.lxor b d).
Proof. apply N.bits_inj. intros n. rewrite !N.lxor_spec. destruct (N.testbit a n), (N.testbit b n), (N.testbit c n), (N.testbit d n); reflexivity. Qed.
Lemma land_lxor' a b m : N.land (N.lxor a b) m = N.lxor (N.land a m) (N.land b m).
Proof. apply N.bits_inj. intros n. rewrite !N.land_spec, !N.lxor_spec, !N.land_spec. destruct (N.testbit a n), (N.testbit b n), (N.testbit m n); reflexivity. Qed.
Lemma syn_bit_lin a b j : syn_bit (N.lxor a b) j = N.lxor (syn_bit a j) (syn_bit b j).
Proof.
  unfold syn_bit. rewrite N.shiftr_lxor, land_lxor', <- lxor_4'. f_equal.
  assert (G : forall l x y, fold_left (fun sum i => N.lxor sum (N.land (N.land (N.shiftr (N.lxor a b) (N.of_nat (29 - i))) 1) (rm_gen i j))) l (N.lxor x y) =
    N.lxor (fold_left (fun sum i => N.lxor sum (N.land (N.land (N.shiftr a (N.of_nat (29 - i))) 1) (rm_gen i j))) l x)
           (fold_left (fun sum i => N.lxor sum (N.land (N.land (N.shiftr b (N.of_nat (29 - i))) 1) (rm_gen i j))) l y)).
  { induction l as [|i l IH]; intros x y; [reflexivity|]. cbn [fold_left]. rewrite <- IH. f_equal. rewrite N.shiftr_lxor, !land_lxor'. apply lxor_4'. }
  exact (G (seq 0 14) 0 0).
Qed.
Lemma syn_testbit w j : N.testbit (compute_syndrome w) (N.of_nat j) = (j <? 16)%nat && N.testbit (syn_bit w j) 0.
Proof.
  unfold compute_syndrome.
  assert (G : forall n p acc, N.testbit (fold_left (fun syn j => if negb (N.land (syn_bit w j) 1 =? 0) then N.lor syn (N.shiftl 1 (N.of_nat j)) else syn) (seq p n) acc) (N.of_nat j) =
     N.testbit acc (N.of_nat j) || ((p <=? j)%nat && (j <? p + n)%nat && N.testbit (syn_bit w j) 0)).
  { induction n as [|n IH]; intros p acc.
    - cbn [seq fold_left]. destruct (Nat.leb_spec p j), (Nat.ltb_spec j (p + 0)); try lia; now rewrite ?andb_false_r, ?orb_false_r.
    - cbn [seq fold_left]. rewrite IH. clear IH. assert (E : (N.land (syn_bit w p) 1 =? 0) = negb (N.testbit (syn_bit w p) 0)).
      { change 1 with (N.ones 1). rewrite N.land_ones. change (2 ^ 1) with 2. rewrite <- N.bit0_mod. destruct (N.testbit (syn_bit w p) 0); reflexivity. }
      rewrite E, negb_involutive. clear E. destruct (Nat.eq_dec p j) as [->|NE].
      + replace (j <=? j)%nat with true by (symmetry; apply Nat.leb_refl). replace (S j <=? j)%nat with false by (symmetry; apply Nat.leb_gt; lia). replace (j <? j + S n)%nat with true by (symmetry; apply Nat.ltb_lt; lia). cbn [andb]. rewrite orb_false_r.
        destruct (N.testbit (syn_bit w j) 0) eqn:T; [|now rewrite orb_false_r]. rewrite N.lor_spec, N.shiftl_spec_high', N.sub_diag by lia. reflexivity.
      + replace (p + S n)%nat with (S p + n)%nat by lia. replace (S p <=? j)%nat with (p <=? j)%nat by (destruct (Nat.leb_spec p j), (Nat.leb_spec (S p) j); lia || reflexivity). f_equal.
        destruct (N.testbit (syn_bit w p) 0); [|reflexivity]. rewrite N.lor_spec, N.shiftl_1_l, N.pow2_bits_eqb. replace (N.of_nat p =? N.of_nat j) with false by (symmetry; apply N.eqb_neq; lia). apply orb_false_r. }
  rewrite (G 16%nat 0%nat 0), N.bits_0. rewrite Nat.add_0_l. change (0 <=? j)%nat with true. cbn [orb andb]. reflexivity.
Qed.
Lemma syndrome_lin a b : compute_syndrome (N.lxor a b) = N.lxor (compute_syndrome a) (compute_syndrome b).
Proof.
  apply N_bits_inj_nat. intros k. rewrite N.lxor_spec, !syn_testbit, syn_bit_lin, N.lxor_spec. generalize (N.testbit (syn_bit a k) 0) (N.testbit (syn_bit b k) 0) (k <? 16)%nat. intros [] [] []; reflexivity.
Qed.
Lemma find_col_mask syn cols : forall k w, find_col syn k cols w = N.lxor w (find_col syn k cols 0).
Proof. induction cols as [|c cols IH]; intros k w; cbn [find_col]; [now rewrite N.lxor_0_r|]. destruct (c =? syn); [now rewrite N.lxor_0_l|]. apply IH. Qed.

(** A linear map commutes with the sum over the rows. *)
Definition rowsum (row : nat -> N) (x : N) (l : list nat) (acc : N) : N := fold_left (fun v i => if N.testbit x (N.of_nat (13 - i)) then N.lxor v (row i) else v) l acc.
Lemma rowsum_lin (F : N -> N) row x : (forall a b, F (N.lxor a b) = N.lxor (F a) (F b)) -> forall l acc, F (rowsum row x l acc) = rowsum (fun i => F (row i)) x l (F acc).
Proof. intros L. induction l as [|i l IH]; intros acc; [reflexivity|]. unfold rowsum in *. cbn [fold_left]. rewrite IH. destruct (N.testbit x (N.of_nat (13 - i))); [now rewrite L|reflexivity]. Qed.
Lemma rowsum_ext row row' x l : (forall i, In i l -> row i = row' i) -> forall acc, rowsum row x l acc = rowsum row' x l acc.
Proof.
  induction l as [|i l IH]; intros H acc; [reflexivity|]. unfold rowsum in *. cbn [fold_left]. rewrite (H i) by (left; reflexivity). apply IH. intros j I. apply H. now right.
Qed.
Lemma rowsum_0 x l : rowsum (fun _ => 0) x l 0 = 0.
Proof. induction l as [|i l IH]; [reflexivity|]. unfold rowsum in *. cbn [fold_left]. destruct (N.testbit x (N.of_nat (13 - i))); exact IH. Qed.
Lemma bit_eqb1 x k : (N.land (N.shiftr x k) 1 =? 1) = N.testbit x k.
Proof. change (N.land (N.shiftr x k) 1) with (N.land (N.shiftr x k) (N.ones 1)). rewrite N.land_ones. change (2 ^ 1) with 2. rewrite <- N.bit0_mod, N.shiftr_spec', N.add_0_l. destruct (N.testbit x _); reflexivity. Qed.
Lemma rowsum_fold row x l : forall acc, fold_left (fun val i => if N.land (N.shiftr x (N.of_nat (13 - i))) 1 =? 1 then N.lxor val (row i) else val) l acc = rowsum row x l acc.
Proof. unfold rowsum. induction l as [|i l IH]; intros acc; [reflexivity|]. cbn [fold_left]. rewrite IH, bit_eqb1. reflexivity. Qed.
Lemma compute_rowsum x : rm3014_compute x = rowsum (fun i => nth i RM_30_14_ROWS_PRECOMPUTED 0) x (seq 0 14) 0.
Proof. exact (rowsum_fold (fun i => nth i RM_30_14_ROWS_PRECOMPUTED 0) x (seq 0 14) 0). Qed.
Lemma rowsum_id x : x < 2 ^ 14 -> rowsum (fun i => 2 ^ N.of_nat (13 - i)) x (seq 0 14) 0 = x.
Proof.
  intros B. assert (G : forall n p acc k, (p + n <= 14)%nat -> N.testbit (rowsum (fun i => 2 ^ N.of_nat (13 - i)) x (seq p n) acc) (N.of_nat k) =
    xorb (N.testbit acc (N.of_nat k)) ((14 - (p + n) <=? k)%nat && (k <? 14 - p)%nat && N.testbit x (N.of_nat k))).
  { unfold rowsum. induction n as [|n IH]; intros p acc k L.
    - cbn [seq fold_left]. destruct (Nat.leb_spec (14 - (p + 0)) k), (Nat.ltb_spec k (14 - p)); try lia; now rewrite ?andb_false_r, ?xorb_false_r.
    - cbn [seq fold_left]. rewrite IH by lia. clear IH. replace (14 - (p + S n))%nat with (14 - (S p + n))%nat by lia. destruct (Nat.eq_dec k (13 - p)) as [->|NE].
      + destruct (Nat.leb_spec (14 - (S p + n)) (13 - p)); [|lia]. destruct (Nat.ltb_spec (13 - p) (14 - S p)); [lia|]. destruct (Nat.ltb_spec (13 - p) (14 - p)); [|lia]. cbn [andb]. rewrite xorb_false_r.
        destruct (N.testbit x (N.of_nat (13 - p))); [|now rewrite xorb_false_r]. now rewrite N.lxor_spec, N.pow2_bits_true.
      + replace (k <? 14 - S p)%nat with (k <? 14 - p)%nat by (destruct (Nat.ltb_spec k (14 - p)), (Nat.ltb_spec k (14 - S p)); lia || reflexivity). f_equal.
        destruct (N.testbit x (N.of_nat (13 - p))); [|reflexivity]. rewrite N.lxor_spec, N.pow2_bits_false by lia. apply xorb_false_r. }
  apply N_bits_inj_nat. intros k. rewrite (G 14%nat 0%nat 0 k) by lia. rewrite N.bits_0, xorb_false_l. change (14 - (0 + 14))%nat with 0%nat. change (14 - 0)%nat with 14%nat. change (0 <=? k)%nat with true. cbn [andb].
  destruct (Nat.ltb_spec k 14); [reflexivity|]. symmetry. apply (testbit_high x 14); [assumption|lia].
Qed.
Lemma three_checks a b c x n : (a =? 0) && (b =? x) && (c =? n) = true -> a = 0 /\ b = x /\ c = n.
Proof. intros H. apply andb_prop in H. destruct H as [H H3]. apply andb_prop in H. destruct H as [H1 H2]. apply N.eqb_eq in H1. apply N.eqb_eq in H2. apply N.eqb_eq in H3. auto. Qed.
Definition row_ok_with (syn r : N) (i : nat) : bool := (syn =? 0) && (N.land (N.shiftr r 16) 0xffff =? 2 ^ N.of_nat (13 - i)) && (N.shiftr r 30 =? 0).
Lemma row_ok_with_spec syn r i : row_ok_with syn r i = true -> syn = 0 /\ N.land (N.shiftr r 16) 0xffff = 2 ^ N.of_nat (13 - i) /\ N.shiftr r 30 = 0.
Proof. apply three_checks. Qed.
Lemma rows_ok : forallb (fun i => row_ok_with (compute_syndrome (nth i RM_30_14_ROWS_PRECOMPUTED 0)) (nth i RM_30_14_ROWS_PRECOMPUTED 0) i) (seq 0 14) = true.
Proof. vm_compute. reflexivity. Qed.
Lemma row_facts i : In i (seq 0 14) -> compute_syndrome (nth i RM_30_14_ROWS_PRECOMPUTED 0) = 0 /\ N.land (N.shiftr (nth i RM_30_14_ROWS_PRECOMPUTED 0) 16) 0xffff = 2 ^ N.of_nat (13 - i) /\ N.shiftr (nth i RM_30_14_ROWS_PRECOMPUTED 0) 30 = 0.
Proof. intros I. exact (row_ok_with_spec _ _ _ (proj1 (forallb_forall (fun i => row_ok_with (compute_syndrome (nth i RM_30_14_ROWS_PRECOMPUTED 0)) (nth i RM_30_14_ROWS_PRECOMPUTED 0) i) (seq 0 14)) rows_ok i I)). Qed.
Lemma codeword x : x < 2 ^ 14 -> compute_syndrome (rm3014_compute x) = 0 /\ N.land (N.shiftr (rm3014_compute x) 16) 0xffff = x /\ rm3014_compute x < 2 ^ 30.
Proof.
  intros B. rewrite compute_rowsum. split; [|split].
  - rewrite (rowsum_lin compute_syndrome _ _ syndrome_lin). rewrite (rowsum_ext _ (fun _ => 0)) by (intros i I; exact (proj1 (row_facts i I))). replace (compute_syndrome 0) with 0 by (vm_compute; reflexivity). apply rowsum_0.
  - rewrite (rowsum_lin (fun w => N.land (N.shiftr w 16) 0xffff)) by (intros; rewrite N.shiftr_lxor; apply land_lxor'). rewrite (rowsum_ext _ (fun i => 2 ^ N.of_nat (13 - i))) by (intros i I; exact (proj1 (proj2 (row_facts i I)))). change (N.land (N.shiftr 0 16) 0xffff) with 0. now apply rowsum_id.
  - assert (Z : N.shiftr (rowsum (fun i => nth i RM_30_14_ROWS_PRECOMPUTED 0) x (seq 0 14) 0) 30 = 0).
    { rewrite (rowsum_lin (fun w => N.shiftr w 30)) by (intros; apply N.shiftr_lxor). rewrite (rowsum_ext _ (fun _ => 0)) by (intros i I; exact (proj2 (proj2 (row_facts i I)))). apply rowsum_0. }
    revert Z. generalize (rowsum (fun i => nth i RM_30_14_ROWS_PRECOMPUTED 0) x (seq 0 14) 0). intros w Z. rewrite N.shiftr_div_pow2 in Z. apply N.div_small_iff in Z; [assumption|discriminate].
Qed.
Definition single_ok_with (s : N) (k : nat) : bool := negb (s =? 0) && (find_col s 0 COL_SYNDROMES 0 =? 2 ^ N.of_nat k).
Lemma single_ok_with_spec s k : single_ok_with s k = true -> negb (s =? 0) = true /\ find_col s 0 COL_SYNDROMES 0 = 2 ^ N.of_nat k.
Proof. unfold single_ok_with. generalize COL_SYNDROMES. intros cs H. apply andb_prop in H. destruct H as [H1 H2]. split; [assumption|]. revert H2. apply N.eqb_eq. Qed.
Lemma singles_ok : forallb (fun k => single_ok_with (compute_syndrome (2 ^ N.of_nat k)) k) (seq 0 30) = true.
Proof. vm_compute. reflexivity. Qed.
Lemma single_facts k : (k < 30)%nat -> negb (compute_syndrome (2 ^ N.of_nat k) =? 0) = true /\ find_col (compute_syndrome (2 ^ N.of_nat k)) 0 COL_SYNDROMES 0 = 2 ^ N.of_nat k.
Proof.
  intros K. assert (I : In k (seq 0 30)) by (apply in_seq; lia). exact (single_ok_with_spec _ _ (proj1 (forallb_forall (fun k => single_ok_with (compute_syndrome (2 ^ N.of_nat k)) k) (seq 0 30)) singles_ok k I)).
Qed.
Lemma decode_clean x : x < 2 ^ 14 -> rm3014_decode_limited_ecc (rm3014_compute x) = x.
Proof. intros B. destruct (codeword x B) as (S0 & V & _). unfold rm3014_decode_limited_ecc. rewrite S0. exact V. Qed.
Lemma decode_single x k : x < 2 ^ 14 -> (k < 30)%nat -> rm3014_decode_limited_ecc (N.lxor (rm3014_compute x) (2 ^ N.of_nat k)) = x.
Proof.
  intros B K. destruct (codeword x B) as (S0 & V & _). destruct (single_facts k K) as (H1 & H2). unfold rm3014_decode_limited_ecc. rewrite syndrome_lin, S0, N.lxor_0_l. revert H1 H2 V. clear S0. unfold decode_with. cbv zeta.
  generalize (compute_syndrome (2 ^ N.of_nat k)) (rm3014_compute x). intros s w H1 H2 V. rewrite H1, find_col_mask, H2, N.lxor_assoc, N.lxor_nilpotent, N.lxor_0_r. exact V.
Qed.
