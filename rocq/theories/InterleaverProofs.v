(** Interleavers are permutations. *)
From Coq Require Import Permutation FinFun.
From Verif Require Import Base BitBufferOps ArrCopy ArrCopyProofs Interleaver.

(** What a loop with a list of index pairs does, in terms of a spec relation: [y] is [x] with element [j] moved to [i]. *)
Lemma nodup_surj (f : nat -> nat) k : (forall i, (i < k)%nat -> (f i < k)%nat) -> (forall i j, (i < k)%nat -> (j < k)%nat -> f i = f j -> i = j) ->
  Permutation (map f (seq 0 k)) (seq 0 k).
Proof.
  intros B I. apply NoDup_Permutation_bis.
  - assert (Q : forall l, NoDup l -> (forall i, In i l -> (i < k)%nat) -> NoDup (map f l)).
    { induction l as [|a l IH]; intros ND H; [constructor|]. apply NoDup_cons_iff in ND. destruct ND as [NI ND]. cbn [map]. constructor.
      - intros Q. apply in_map_iff in Q. destruct Q as (b & E & Hb). apply I in E; [subst; contradiction|apply H; now right|apply H; now left].
      - apply IH; [assumption|]. intros i Hi. apply H. now right. }
    apply Q; [apply seq_NoDup|]. intros i Hi. apply in_seq in Hi. lia.
  - rewrite map_length. lia.
  - intros x Hx. apply in_map_iff in Hx. destruct Hx as (i & <- & Hi). apply in_seq in Hi. apply in_seq. specialize (B i). lia.
Qed.

Definition il (k a i : nat) : nat := ((a * (i + 1)) mod k)%nat.
Lemma interl_pairs_spec k a swap : (0 < k)%nat -> (N.of_nat a * N.of_nat k < 2 ^ 32)%N -> forall is, (forall i, In i is -> (1 <= i <= k)%nat) ->
  interl_pairs k a swap is = Ok (map (fun i => if swap then (i - 1, il k a (i - 1)) else (il k a (i - 1), i - 1))%nat is).
Proof.
  intros K B. induction is as [|i is IH]; intros H; [reflexivity|]. cbn [interl_pairs]. unfold block_interl_func.
  destruct (N.eqb_spec (N.of_nat k) 0); [lia|]. cbn [negb assert bind]. rewrite IH by (intros j Hj; apply H; now right). cbn [bind map]. do 2 f_equal.
  assert (Hi : (1 <= i <= k)%nat) by (apply H; now left).
  assert (E : ((N.of_nat a * N.of_nat i) mod 2 ^ 32 = N.of_nat a * N.of_nat i)%N).
  { apply N.mod_small. eapply N.le_lt_trans; [|exact B]. apply N.mul_le_mono_l. lia. }
  rewrite E. assert (J : (N.to_nat (1 + (N.of_nat a * N.of_nat i) mod N.of_nat k) - 1)%nat = il k a (i - 1)).
  { unfold il. replace (i - 1 + 1)%nat with i by lia. rewrite <- Nat2N.inj_mul, <- Nat2N.inj_mod. lia. }
  rewrite J. reflexivity.
Qed.
Lemma il_range k a i : (0 < k)%nat -> (il k a i < k)%nat.
Proof. intros H. unfold il. apply Nat.mod_upper_bound. lia. Qed.
Lemma il_inj k a i j : Nat.gcd a k = 1%nat -> (i < k)%nat -> (j < k)%nat -> il k a i = il k a j -> i = j.
Proof.
  intros G Hi Hj E. unfold il in E.
  assert (Q : forall x y, (x <= y)%nat -> (y < k)%nat -> ((a * (x + 1)) mod k = (a * (y + 1)) mod k)%nat -> x = y).
  { intros x y L Ly E2. assert (D : Nat.divide k (a * (y - x))).
    { exists ((a * (y + 1)) / k - (a * (x + 1)) / k)%nat. pose proof (Nat.div_mod (a * (x + 1)) k). pose proof (Nat.div_mod (a * (y + 1)) k).
      rewrite Nat.mul_sub_distr_r. nia. }
    rewrite Nat.gcd_comm in G. pose proof (Nat.gauss _ _ _ D G) as (m & M). destruct m; [lia|]. nia. }
  destruct (Nat.le_gt_cases i j); [apply (Q i j); lia|symmetry; apply (Q j i); lia].
Qed.

Section Perm.
  Context {A : Type}.
  Variables (k : nat) (f : nat -> nat).
  Hypothesis (B : forall i, (i < k)%nat -> (f i < k)%nat).
  (** scatter: element [i] goes to [f i]; gather: element [i] comes from [f i] *)
  Lemma scatter_spec (x o : list A) ps : (k <= length x)%nat -> (k <= length o)%nat -> (forall i j, In (i, j) ps <-> exists m, (m < k)%nat /\ i = f m /\ j = m) -> NoDup (map fst ps) ->
    exists y, copy_idx ps x o = Ok y /\ length y = length o /\ (forall i d, (i < k)%nat -> nth (f i) y d = nth i x d) /\ (forall i d, (k <= i)%nat -> nth i y d = nth i o d).
  Proof.
    intros Lx Lo P ND. destruct (copy_idx_spec ps x o) as (y & E & L & H1 & H2).
    - intros i j H. apply P in H. destruct H as (m & Hm & -> & ->). specialize (B m Hm). lia.
    - assumption.
    - exists y. split; [assumption|]. split; [assumption|]. split.
      + intros i d Hi. apply H1. apply P. eauto.
      + intros i d Hi. apply H2. intros Q. apply in_map_iff in Q. destruct Q as ([a b] & E2 & Q). cbn [fst] in E2. subst a. apply P in Q. destruct Q as (m & Hm & -> & _). specialize (B m Hm). lia.
  Qed.
  Lemma gather_spec (x o : list A) ps : (k <= length x)%nat -> (k <= length o)%nat -> (forall i j, In (i, j) ps <-> exists m, (m < k)%nat /\ i = m /\ j = f m) -> NoDup (map fst ps) ->
    exists y, copy_idx ps x o = Ok y /\ length y = length o /\ (forall i d, (i < k)%nat -> nth i y d = nth (f i) x d) /\ (forall i d, (k <= i)%nat -> nth i y d = nth i o d).
  Proof.
    intros Lx Lo P ND. destruct (copy_idx_spec ps x o) as (y & E & L & H1 & H2).
    - intros i j H. apply P in H. destruct H as (m & Hm & -> & ->). specialize (B m Hm). lia.
    - assumption.
    - exists y. split; [assumption|]. split; [assumption|]. split.
      + intros i d Hi. apply H1. apply P. eauto.
      + intros i d Hi. apply H2. intros Q. apply in_map_iff in Q. destruct Q as ([a b] & E2 & Q). cbn [fst] in E2. subst a. apply P in Q. destruct Q as (m & Hm & -> & _). lia.
  Qed.
  Hypothesis (I : forall i j, (i < k)%nat -> (j < k)%nat -> f i = f j -> i = j).
  Lemma f_surj j : (j < k)%nat -> exists i, (i < k)%nat /\ f i = j.
  Proof.
    intros H. pose proof (nodup_surj f k B I) as P. assert (Q : In j (map f (seq 0 k))) by (eapply Permutation_in; [apply Permutation_sym; exact P|apply in_seq; lia]).
    apply in_map_iff in Q. destruct Q as (i & E & Hi). apply in_seq in Hi. exists i. split; [lia|assumption].
  Qed.
  Lemma perm_of_nth (x y : list A) : (k <= length x)%nat -> (k <= length y)%nat -> (forall i d, (i < k)%nat -> nth (f i) y d = nth i x d) -> Permutation (firstn k x) (firstn k y).
  Proof.
    intros Lx Ly H. destruct k as [|k'] eqn:K; [constructor|]. destruct x as [|d x0] eqn:X; [cbn in Lx; lia|]. rewrite <- X in *.
    assert (E1 : firstn (S k') x = map (fun i => nth i x d) (seq 0 (S k'))).
    { apply (list_ext _ _ d); [rewrite firstn_length, map_length, seq_length; lia|]. intros i Hi. rewrite firstn_length in Hi. rewrite nth_firstn' by lia. rewrite nth_map_seq by lia. reflexivity. }
    assert (E2 : firstn (S k') y = map (fun i => nth i y d) (seq 0 (S k'))).
    { apply (list_ext _ _ d); [rewrite firstn_length, map_length, seq_length; lia|]. intros i Hi. rewrite firstn_length in Hi. rewrite nth_firstn' by lia. rewrite nth_map_seq by lia. reflexivity. }
    rewrite E1, E2. transitivity (map (fun i => nth i y d) (map f (seq 0 (S k')))).
    - rewrite map_map. erewrite map_ext_in; [apply Permutation_refl|]. intros i Hi. apply in_seq in Hi. cbn beta. symmetry. apply H. lia.
    - apply Permutation_map. apply nodup_surj; assumption.
  Qed.
End Perm.

Lemma map_pairs_in {B} (g : nat -> B) n p : In p (map g (seq 1 n)) <-> exists m, (m < n)%nat /\ p = g (m + 1)%nat.
Proof.
  rewrite in_map_iff. split.
  - intros (i & <- & Hi). apply in_seq in Hi. exists (i - 1)%nat. split; [lia|]. f_equal. lia.
  - intros (m & Hm & ->). exists (m + 1)%nat. split; [reflexivity|apply in_seq; lia].
Qed.

Lemma firstn_ext {A} k (x y : list A) : (k <= length x)%nat -> (k <= length y)%nat -> (forall i d, (i < k)%nat -> nth i x d = nth i y d) -> firstn k x = firstn k y.
Proof.
  intros Lx Ly H. destruct x as [|d x0] eqn:X; [cbn in Lx; destruct k; [reflexivity|lia]|]. rewrite <- X in *. apply (list_ext _ _ d); [rewrite !firstn_length; lia|]. intros i Hi. rewrite firstn_length in Hi.
  rewrite !nth_firstn' by lia. apply H. lia.
Qed.
Section Block.
  Context {A : Type}.
  Variables (k a : nat).
  Hypothesis (K : (0 < k)%nat) (G : Nat.gcd a k = 1%nat) (O : (N.of_nat a * N.of_nat k < 2 ^ 32)%N).
  Lemma interleave_spec (x o : list A) : (k <= length x)%nat -> (k <= length o)%nat ->
    exists y, block_interleave k a x o = Ok y /\ length y = length o /\ (forall i d, (i < k)%nat -> nth (il k a i) y d = nth i x d) /\ (forall i d, (k <= i)%nat -> nth i y d = nth i o d).
  Proof.
    intros Lx Lo. unfold block_interleave. destruct (Nat.leb_spec k (length x)); [|lia]. destruct (Nat.leb_spec k (length o)); [|lia]. cbn [andb assert bind].
    rewrite interl_pairs_spec by (auto; intros i Hi; apply in_seq in Hi; lia). cbn [bind]. apply (scatter_spec k (il k a)); try assumption.
    - intros i Hi. apply il_range. assumption.
    - intros i j. rewrite map_pairs_in. split.
      + intros (m & Hm & E). injection E as -> ->. exists m. replace (m + 1 - 1)%nat with m by lia. auto.
      + intros (m & Hm & -> & ->). exists m. replace (m + 1 - 1)%nat with m by lia. auto.
    - rewrite map_map. cbn [fst].
      assert (Q : map (fun i => il k a (i - 1)) (seq 1 k) = map (il k a) (seq 0 k)).
      { rewrite <- (seq_shift k 0), map_map. apply map_ext. intros i. f_equal. lia. }
      rewrite Q. eapply Permutation_NoDup; [apply Permutation_sym; apply nodup_surj|apply seq_NoDup].
      + intros i Hi. now apply il_range.
      + intros i j Hi Hj. apply il_inj; assumption.
  Qed.
  Lemma deinterleave_spec (x o : list A) : (k <= length x)%nat -> (k <= length o)%nat ->
    exists y, block_deinterleave k a x o = Ok y /\ length y = length o /\ (forall i d, (i < k)%nat -> nth i y d = nth (il k a i) x d) /\ (forall i d, (k <= i)%nat -> nth i y d = nth i o d).
  Proof.
    intros Lx Lo. unfold block_deinterleave. destruct (Nat.leb_spec k (length x)); [|lia]. destruct (Nat.leb_spec k (length o)); [|lia]. cbn [andb assert bind].
    rewrite interl_pairs_spec by (auto; intros i Hi; apply in_seq in Hi; lia). cbn [bind]. apply (gather_spec k (il k a)); try assumption.
    - intros i Hi. apply il_range. assumption.
    - intros i j. rewrite map_pairs_in. split.
      + intros (m & Hm & E). injection E as -> ->. exists m. replace (m + 1 - 1)%nat with m by lia. auto.
      + intros (m & Hm & -> & ->). exists m. replace (m + 1 - 1)%nat with m by lia. auto.
    - rewrite map_map. cbn [fst].
      assert (Q : map (fun i => (i - 1)%nat) (seq 1 k) = seq 0 k).
      { rewrite <- (seq_shift k 0), map_map. rewrite <- map_id. apply map_ext. intros i. lia. }
      rewrite Q. apply seq_NoDup.
  Qed.
  Lemma block_roundtrip (x o o2 : list A) : (k <= length x)%nat -> (k <= length o)%nat -> (k <= length o2)%nat ->
    exists y z, block_interleave k a x o = Ok y /\ Permutation (firstn k x) (firstn k y) /\ block_deinterleave k a y o2 = Ok z /\ firstn k z = firstn k x.
  Proof.
    intros Lx Lo Lo2. destruct (interleave_spec x o Lx Lo) as (y & E & L & H & _). destruct (deinterleave_spec y o2) as (z & E2 & L2 & H2 & _); [lia|assumption|].
    exists y, z. split; [assumption|]. split.
    - apply (perm_of_nth k (il k a)); try assumption; try lia.
      + intros i Hi. now apply il_range.
      + intros i j Hi Hj. apply il_inj; assumption.
    - split; [assumption|]. apply firstn_ext; try lia. intros i d Hi. rewrite H2 by assumption. now apply H.
  Qed.
  Lemma block_roundtrip_rev (x o o2 : list A) : (k <= length x)%nat -> (k <= length o)%nat -> (k <= length o2)%nat ->
    exists y z, block_deinterleave k a x o = Ok y /\ block_interleave k a y o2 = Ok z /\ firstn k z = firstn k x.
  Proof.
    intros Lx Lo Lo2. destruct (deinterleave_spec x o Lx Lo) as (y & E & L & H & _). destruct (interleave_spec y o2) as (z & E2 & L2 & H2 & _); [lia|assumption|].
    exists y, z. split; [assumption|]. split; [assumption|]. apply firstn_ext; try lia. intros j d Hj.
    destruct (f_surj k (il k a) (fun i _ => il_range k a i K) (fun i j Hi Hj => il_inj k a i j G Hi Hj) j Hj) as (i & Hi & <-). rewrite H2 by assumption. now apply H.
  Qed.
End Block.

(** ** Matrix interleaver: element [j * columns + i] moves to [i * lines + j] *)
Definition mx (lines columns p : nat) : nat := (p mod lines * columns + p / lines)%nat.
Lemma matrix_pairs_in lines columns (swap : bool) p q : In (p, q) (matrix_pairs lines columns swap) <->
  exists i j, (i < columns)%nat /\ (j < lines)%nat /\ (if swap then q = (i * lines + j)%nat /\ p = (j * columns + i)%nat else p = (i * lines + j)%nat /\ q = (j * columns + i)%nat).
Proof.
  unfold matrix_pairs. rewrite in_flat_map. split.
  - intros (i & Hi & H). apply in_map_iff in H. destruct H as (j & E & Hj). apply in_seq in Hi, Hj. exists i, j. split; [lia|]. split; [lia|]. destruct swap; injection E as <- <-; auto.
  - intros (i & j & Hi & Hj & H). exists i. split; [apply in_seq; lia|]. apply in_map_iff. exists j. split; [destruct swap; destruct H as [-> ->]; reflexivity|apply in_seq; lia].
Qed.
Lemma mx_eq lines columns i j : (i < columns)%nat -> (j < lines)%nat -> mx lines columns (i * lines + j) = (j * columns + i)%nat.
Proof.
  intros Hi Hj. unfold mx. assert (E1 : ((i * lines + j) mod lines = j)%nat) by (rewrite Nat.add_comm, Nat.mod_add by lia; apply Nat.mod_small; lia).
  assert (E2 : ((i * lines + j) / lines = i)%nat) by (rewrite Nat.div_add_l by lia; rewrite Nat.div_small by lia; lia). now rewrite E1, E2.
Qed.
Lemma mx_split lines columns p : (0 < lines)%nat -> (p < lines * columns)%nat -> exists i j, (i < columns)%nat /\ (j < lines)%nat /\ p = (i * lines + j)%nat.
Proof.
  intros H Hp. exists (p / lines)%nat, (p mod lines)%nat. split; [apply Nat.div_lt_upper_bound; lia|]. split; [apply Nat.mod_upper_bound; lia|]. rewrite Nat.mul_comm. apply Nat.div_mod. lia.
Qed.
Section Matrix.
  Context {A : Type}.
  Variables (lines columns : nat).
  Hypothesis (HL : (0 < lines)%nat) (HC : (0 < columns)%nat).
  Let k := (lines * columns)%nat.
  Lemma mx_range p : (p < k)%nat -> (mx lines columns p < k)%nat.
  Proof. intros Hp. destruct (mx_split lines columns p HL Hp) as (i & j & Hi & Hj & ->). rewrite mx_eq by assumption. unfold k. nia. Qed.
  Lemma mx_inj p q : (p < k)%nat -> (q < k)%nat -> mx lines columns p = mx lines columns q -> p = q.
  Proof.
    intros Hp Hq. destruct (mx_split lines columns p HL Hp) as (i & j & Hi & Hj & ->), (mx_split lines columns q HL Hq) as (i' & j' & Hi' & Hj' & ->). rewrite !mx_eq by assumption. intros E.
    assert (j = j' /\ i = i') by (apply (Nat.div_mod_unique columns); lia). destruct H as [-> ->]. reflexivity.
  Qed.
  Lemma mx_nodup swap : NoDup (map fst (matrix_pairs lines columns swap)).
  Proof.
    assert (Q : Permutation (map fst (matrix_pairs lines columns swap)) (seq 0 k)); [|eapply Permutation_NoDup; [apply Permutation_sym; exact Q|apply seq_NoDup]].
    apply Permutation_sym. apply NoDup_Permutation_bis.
    - apply seq_NoDup.
    - rewrite map_length, seq_length. unfold matrix_pairs, k. clear. assert (E : forall l (g : nat -> nat -> nat * nat), length (flat_map (fun i => map (g i) (seq 0 lines)) l) = (lines * length l)%nat).
      { induction l as [|x l IH]; intros g; [cbn; lia|]. cbn [flat_map length]. rewrite app_length, map_length, seq_length, IH. lia. }
      rewrite E, seq_length. lia.
    - intros p Hp. apply in_seq in Hp. apply in_map_iff. destruct swap.
      + (* p = j * columns + i *)
        destruct (mx_split columns lines p HC) as (j & i & Hj & Hi & ->); [unfold k in Hp; lia|]. exists ((j * columns + i)%nat, (i * lines + j)%nat). split; [reflexivity|]. apply matrix_pairs_in. exists i, j. auto.
      + destruct (mx_split lines columns p HL) as (i & j & Hi & Hj & ->); [unfold k in Hp; lia|]. exists ((i * lines + j)%nat, (j * columns + i)%nat). split; [reflexivity|]. apply matrix_pairs_in. exists i, j. auto.
  Qed.
  Lemma matrix_interleave_spec (x o : list A) : (k <= length x)%nat -> (k <= length o)%nat ->
    exists y, matrix_interleave lines columns x o = Ok y /\ length y = length o /\ (forall i d, (i < k)%nat -> nth i y d = nth (mx lines columns i) x d) /\ (forall i d, (k <= i)%nat -> nth i y d = nth i o d).
  Proof.
    intros Lx Lo. unfold matrix_interleave. fold k. destruct (Nat.leb_spec k (length x)); [|lia]. destruct (Nat.leb_spec k (length o)); [|lia]. cbn [andb assert bind]. apply (gather_spec k (mx lines columns)); try assumption; [apply mx_range| |apply mx_nodup].
    intros p q. rewrite matrix_pairs_in. split.
    - intros (i & j & Hi & Hj & -> & ->). exists (i * lines + j)%nat. rewrite mx_eq by assumption. split; [unfold k; nia|auto].
    - intros (m & Hm & -> & ->). destruct (mx_split lines columns m HL Hm) as (i & j & Hi & Hj & ->). exists i, j. rewrite mx_eq by assumption. auto.
  Qed.
  Lemma matrix_deinterleave_spec (x o : list A) : (k <= length x)%nat -> (k <= length o)%nat ->
    exists y, matrix_deinterleave lines columns x o = Ok y /\ length y = length o /\ (forall i d, (i < k)%nat -> nth (mx lines columns i) y d = nth i x d) /\ (forall i d, (k <= i)%nat -> nth i y d = nth i o d).
  Proof.
    intros Lx Lo. unfold matrix_deinterleave. fold k. destruct (Nat.leb_spec k (length x)); [|lia]. destruct (Nat.leb_spec k (length o)); [|lia]. cbn [andb assert bind]. apply (scatter_spec k (mx lines columns)); try assumption; [apply mx_range| |apply mx_nodup].
    intros p q. rewrite matrix_pairs_in. split.
    - intros (i & j & Hi & Hj & -> & ->). exists (i * lines + j)%nat. rewrite mx_eq by assumption. split; [unfold k; nia|auto].
    - intros (m & Hm & -> & ->). destruct (mx_split lines columns m HL Hm) as (i & j & Hi & Hj & ->). exists i, j. rewrite mx_eq by assumption. auto.
  Qed.
  Lemma matrix_roundtrip (x o o2 : list A) : (k <= length x)%nat -> (k <= length o)%nat -> (k <= length o2)%nat ->
    exists y z, matrix_interleave lines columns x o = Ok y /\ Permutation (firstn k x) (firstn k y) /\ matrix_deinterleave lines columns y o2 = Ok z /\ firstn k z = firstn k x.
  Proof.
    intros Lx Lo Lo2. destruct (matrix_interleave_spec x o Lx Lo) as (y & E & L & H & _). destruct (matrix_deinterleave_spec y o2) as (z & E2 & L2 & H2 & _); [lia|assumption|].
    exists y, z. split; [assumption|]. split.
    - apply Permutation_sym. apply (perm_of_nth k (mx lines columns)); try assumption; try lia.
      + apply mx_range.
      + apply mx_inj.
      + intros i d Hi. symmetry. now apply H.
    - split; [assumption|]. apply firstn_ext; try lia. intros j d Hj.
      destruct (f_surj k (mx lines columns) mx_range mx_inj j Hj) as (i & Hi & <-). rewrite H2 by assumption. now apply H.
  Qed.
  Lemma matrix_roundtrip_rev (x o o2 : list A) : (k <= length x)%nat -> (k <= length o)%nat -> (k <= length o2)%nat ->
    exists y z, matrix_deinterleave lines columns x o = Ok y /\ matrix_interleave lines columns y o2 = Ok z /\ firstn k z = firstn k x.
  Proof.
    intros Lx Lo Lo2. destruct (matrix_deinterleave_spec x o Lx Lo) as (y & E & L & H & _). destruct (matrix_interleave_spec y o2) as (z & E2 & L2 & H2 & _); [lia|assumption|].
    exists y, z. split; [assumption|]. split; [assumption|]. apply firstn_ext; try lia. intros j d Hj. rewrite H2 by assumption. now apply H.
  Qed.
End Matrix.

(** ** Codec reordering *)
Lemma reorder_check : let a := map fst reorder_pairs in let b := map snd reorder_pairs in
  forallb (fun i => existsb (Nat.eqb i) a) (seq 0 274) && forallb (fun i => existsb (Nat.eqb i) b) (seq 0 274) && forallb (fun i => (i <? 274)%nat) a && forallb (fun i => (i <? 274)%nat) b && (length reorder_pairs =? 274)%nat = true.
Proof. vm_compute. reflexivity. Qed.
Lemma covers (l : list nat) n : forallb (fun i => existsb (Nat.eqb i) l) (seq 0 n) = true -> length l = n -> Permutation l (seq 0 n).
Proof.
  intros H L. apply Permutation_sym. apply NoDup_Permutation_bis; [apply seq_NoDup|rewrite seq_length; lia|]. intros i Hi. rewrite forallb_forall in H. specialize (H i Hi).
  apply existsb_exists in H. destruct H as (x & Hx & E). apply Nat.eqb_eq in E. now subst.
Qed.
Lemma reorder_facts : Permutation (map fst reorder_pairs) (seq 0 274) /\ Permutation (map snd reorder_pairs) (seq 0 274) /\ in_range reorder_pairs 274 274.
Proof.
  pose proof reorder_check as C. cbv zeta in C. apply andb_prop in C. destruct C as [C C5]. apply andb_prop in C. destruct C as [C C4]. apply andb_prop in C. destruct C as [C C3]. apply andb_prop in C. destruct C as [C1 C2].
  apply Nat.eqb_eq in C5. split; [apply covers; [assumption|rewrite map_length; assumption]|]. split; [apply covers; [assumption|rewrite map_length; assumption]|].
  intros i j H. rewrite forallb_forall in C3, C4. split; apply Nat.ltb_lt; [apply C3|apply C4]; apply in_map_iff; exists (i, j); auto.
Qed.
Lemma perm_seq_in (l : list nat) i : Permutation l (seq 0 274) -> (i < 274)%nat -> In i l.
Proof. intros P H. apply (Permutation_in _ (Permutation_sym P)). apply in_seq. lia. Qed.
Lemma repeat_len {B} (x : B) : length (repeat x 274) = 274%nat.
Proof. apply repeat_length. Qed.
Lemma reorder_roundtrip x : length x = 274%nat ->
  exists y, codec_to_channel x = Ok y /\ length y = 274%nat /\ Permutation x y /\ channel_to_codec y = Ok x.
Proof.
  intros L. destruct reorder_facts as (P1 & P2 & R). unfold codec_to_channel, channel_to_codec. set (sw := map (fun p => (snd p, fst p)) reorder_pairs).
  assert (F1 : map fst sw = map snd reorder_pairs) by (unfold sw; rewrite map_map; reflexivity).
  assert (IN : forall i j, In (i, j) sw <-> In (j, i) reorder_pairs).
  { intros i j. unfold sw. rewrite in_map_iff. split; [intros ([a b] & E & H); injection E as <- <-; assumption|intros H; exists (j, i); auto]. }
  destruct (copy_idx_spec sw x (repeat 0%N 274)) as (y & E & Ly & H1 & _).
  { intros i j H. apply IN, R in H. rewrite repeat_len, L. lia. }
  { rewrite F1. eapply Permutation_NoDup; [apply Permutation_sym; exact P2|apply seq_NoDup]. }
  rewrite repeat_len in Ly. destruct (copy_idx_spec reorder_pairs y (repeat 0%N 274)) as (z & E2 & Lz & H2 & _).
  { intros i j H. apply R in H. rewrite repeat_len, Ly. lia. }
  { eapply Permutation_NoDup; [apply Permutation_sym; exact P1|apply seq_NoDup]. }
  rewrite repeat_len in Lz. exists y. split; [assumption|]. split; [assumption|]. split.
  - assert (Q : forall (l : list N) (ix : list nat), length l = 274%nat -> Permutation ix (seq 0 274) -> Permutation l (map (fun i => nth i l 0%N) ix)).
    { intros l ix Ll P. transitivity (map (fun i => nth i l 0%N) (seq 0 274)); [|apply Permutation_map; apply Permutation_sym; assumption].
      rewrite <- Ll. clear. assert (E : map (fun i => nth i l 0%N) (seq 0 (length l)) = l); [|rewrite E; reflexivity].
      apply (list_ext _ _ 0%N); [rewrite map_length, seq_length; reflexivity|]. intros i Hi. rewrite map_length, seq_length in Hi. rewrite nth_map_seq by lia. reflexivity. }
    rewrite (Q x (map fst reorder_pairs) L P1). rewrite (Q y (map snd reorder_pairs) Ly P2) at 1. rewrite !map_map. erewrite map_ext_in; [apply Permutation_refl|]. intros [i j] H. cbn [fst snd]. symmetry. apply (H1 j i). apply IN. assumption.
  - rewrite E2. f_equal. apply (list_ext _ _ 0%N); [lia|]. intros i Hi. rewrite Lz in Hi. pose proof (perm_seq_in _ i P1 Hi) as Q. apply in_map_iff in Q. destruct Q as ([a j] & Ea & H). cbn [fst] in Ea. subst a.
    rewrite (H2 i j) by assumption. apply H1. now apply IN.
Qed.
