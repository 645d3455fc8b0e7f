(** Proofs about the fields of the CMCE PDUs. *)
From Verif Require Import Base BitsLib BitBuffer BitBufferProofs BitBufferOps Codec CodecProofs TypedFields TypedFieldsProofs
  CmceFields CmcePdus PduSpec PduProofs CmceSpec.
Open Scope N_scope.

(** ** Basic service information *)
Lemma bsi_writes s : bsi_valid s = true -> writes (bsi_to_bitbuf s) (bsi_bits s).
Proof.
  unfold bsi_valid. rewrite !andb_true_iff. intros [[A B] C]. destruct s as [m e c sl sp]. unfold bsi_to_bitbuf, bsi_bits in *. cbn [bsi_circuit_mode bsi_encryption bsi_comm_type bsi_slots bsi_speech] in *.
  apply w_num; [lia|exact A|]. apply w_flag. apply w_num; [lia|exact B|].
  destruct (m =? 0) eqn:M; rewrite !andb_true_iff in C; destruct C as [[C1 C2] C3]; destruct sl as [x|], sp as [y|]; try discriminate.
  - apply w_guard; [unfold bsi_consistent; cbn [bsi_slots bsi_speech bsi_circuit_mode]; exact M|].
    apply writes_then0; [apply writes_ret|]. cbn [wopt]. apply writes_field; [lia|now apply fit_lt].
  - apply w_guard; [reflexivity|]. rewrite <- (app_nil_r (num 2 x)).
    apply (w_cond 2 (Some x) _ []); [lia|exact C3|apply writes_ret].
Qed.
Lemma bsi_reads s : bsi_valid s = true -> reads bsi_from_bitbuf (bsi_bits s) s.
Proof.
  unfold bsi_valid. rewrite !andb_true_iff. intros [[A B] C]. destruct s as [m e c sl sp]. unfold bsi_from_bitbuf, bsi_bits in *. cbn [bsi_circuit_mode bsi_encryption bsi_comm_type bsi_slots bsi_speech] in *.
  apply readsF_reads. apply r_num; [lia|exact A|]. apply r_flag. apply r_num; [lia|exact B|].
  destruct (m =? 0) eqn:M; rewrite !andb_true_iff in C; destruct C as [[C1 C2] C3]; destruct sl as [x|], sp as [y|]; try discriminate;
    (rewrite <- (app_nil_r (num 2 _)); apply r_num; [lia|exact C3|]; apply reads_readsF, reads_ret).
Qed.

(** ** User defined data *)
Lemma byte_prefix x n : (n <= 8)%nat -> bits_of n (N.shiftr x (N.of_nat (8 - n))) = firstn n (bits_of 8 x).
Proof.
  intros H. replace 8%nat with (n + (8 - n))%nat at 2 by lia. rewrite bits_of_app.
  rewrite firstn_app, bits_of_length, Nat.sub_diag, firstn_O, app_nil_r, firstn_all2 by (rewrite bits_of_length; lia). reflexivity.
Qed.
Lemma byte_prefix_fit x n : (n <= 8)%nat -> x < 256 -> N.shiftr x (N.of_nat (8 - n)) < 2 ^ N.of_nat n.
Proof.
  intros H L. rewrite N.shiftr_div_pow2. apply N.div_lt_upper_bound; [apply N.pow_nonzero; lia|].
  rewrite <- N.pow_add_r. replace (N.of_nat (8 - n) + N.of_nat n) with 8 by lia. exact L.
Qed.
Definition byte_ok (n : nat) (x : N) : bool :=
  if forallb negb (skipn n (bits_of 8 x)) then shl8 (to_u8 (N.shiftr x (N.of_nat (8 - n)))) (8 - n) =? x else true.
Lemma byte_ok_all : forallb (fun n => forallb (fun x => byte_ok n (N.of_nat x)) (seq 0 256)) (seq 0 9) = true.
Proof. vm_compute. reflexivity. Qed.
Lemma byte_back x n : (n <= 8)%nat -> x < 256 -> forallb negb (skipn n (bits_of 8 x)) = true ->
  shl8 (to_u8 (bits_val (firstn n (bits_of 8 x)))) (8 - n) = x.
Proof.
  intros H L Z. rewrite <- byte_prefix by exact H. rewrite bits_val_of by (now apply byte_prefix_fit).
  pose proof byte_ok_all as A. rewrite forallb_forall in A. specialize (A n ltac:(apply in_seq; lia)).
  rewrite forallb_forall in A. specialize (A (N.to_nat x) ltac:(apply in_seq; lia)). rewrite N2Nat.id in A.
  unfold byte_ok in A. rewrite Z in A. now apply N.eqb_eq in A.
Qed.

Lemma bytes_bits_cons x l : bytes_bits (x :: l) = bits_of 8 x ++ bytes_bits l.
Proof. reflexivity. Qed.
Lemma bytes_bits_length l : length (bytes_bits l) = (8 * length l)%nat.
Proof. induction l as [|x l IH]; [reflexivity|]. rewrite bytes_bits_cons, app_length, bits_of_length, IH. cbn [length]. lia. Qed.

Lemma slice_loop_reads data : forall n acc b rest,
  (length data = (n + 7) / 8)%nat -> forallb (fit 8) data = true -> forallb negb (skipn n (bytes_bits data)) = true ->
  wf b -> remaining b = firstn n (bytes_bits data) ++ rest ->
  read_slice_loop (length data) n b acc = Ok (Some (acc ++ data), adv b n).
Proof.
  induction data as [|x data IH]; intros n acc b rest L Fi Z W E.
  - cbn [length read_slice_loop] in *. assert (n = 0)%nat as -> by (destruct n; [reflexivity|]; exfalso; symmetry in L; apply Nat.div_small_iff in L; lia).
    rewrite app_nil_r, adv_0. reflexivity.
  - cbn [forallb] in Fi. apply andb_true_iff in Fi. destruct Fi as [Fx Fi]. apply fit_lt in Fx. change (2 ^ N.of_nat 8) with 256 in Fx.
    rewrite bytes_bits_cons in *. cbn [length] in L. cbn [length read_slice_loop].
    assert (n <= 8 * length (x :: data))%nat as Ln.
    { cbn [length]. pose proof (Nat.div_mod (n + 7) 8). pose proof (Nat.mod_upper_bound (n + 7) 8). lia. }
    cbn [length] in Ln.
    set (k := Nat.min n 8).
    assert (firstn n (bits_of 8 x ++ bytes_bits data) = firstn k (bits_of 8 x) ++ firstn (n - k) (bytes_bits data)) as EF.
    { rewrite firstn_app, bits_of_length. f_equal; [|f_equal; subst k; lia].
      destruct (Nat.le_ge_cases n 8); [f_equal; subst k; lia|]. rewrite !firstn_all2; try (rewrite bits_of_length; subst k; lia). reflexivity. }
    rewrite EF in E. rewrite <- app_assoc in E.
    assert (length (firstn k (bits_of 8 x)) = k) as Lk by (rewrite firstn_length, bits_of_length; subst k; lia).
    rewrite read_bits_opt_spec by (assumption || (subst k; lia)). rewrite E, app_length, Lk.
    destruct (Nat.leb_spec k (k + length (firstn (n - k) (bytes_bits data) ++ rest))) as [_|]; [|lia]. cbn [bind].
    rewrite firstn_app, Lk, Nat.sub_diag, firstn_O, app_nil_r, firstn_firstn, Nat.min_id.
    rewrite skipn_app, bits_of_length, forallb_app in Z. apply andb_true_iff in Z. destruct Z as [Z1 Z2].
    rewrite byte_back; [|subst k; lia|exact Fx|].
    2:{ destruct (Nat.le_ge_cases n 8); [replace k with n by (subst k; lia); exact Z1|]. rewrite skipn_all2; [reflexivity|rewrite bits_of_length; subst k; lia]. }
    rewrite (IH (n - k)%nat _ _ rest).
    + rewrite <- app_assoc. cbn [app]. rewrite adv_adv. do 2 f_equal. f_equal. subst k; lia.
    + destruct (Nat.le_ge_cases n 8).
      * replace (n - k)%nat with 0%nat by (subst k; lia). cbn. destruct data; [reflexivity|]. exfalso.
        assert ((n + 7) / 8 < 2)%nat by (apply Nat.div_lt_upper_bound; lia). cbn [length] in L. lia.
      * replace (n + 7)%nat with (n - k + 7 + 1 * 8)%nat in L by (subst k; lia). rewrite Nat.div_add in L by lia. lia.
    + exact Fi.
    + replace (n - k)%nat with (n - 8)%nat by (subst k; lia). exact Z2.
    + apply wf_adv; [exact W|]. rewrite E, app_length, Lk. lia.
    + rewrite remaining_adv by exact W. rewrite E. rewrite skipn_app, Lk, Nat.sub_diag, skipn_O, skipn_all2 by lia. reflexivity.
Qed.

Lemma ceil8 n : N.to_nat ((n + 7) / 8) = ((N.to_nat n + 7) / 8)%nat.
Proof. rewrite N2Nat.inj_div, N2Nat.inj_add. reflexivity. Qed.

Lemma sds_reads d : sds_valid d = true -> reads sds_from_bitbuf (sds_bits d) d.
Proof.
  intros V. unfold sds_from_bitbuf. destruct d as [v|v|v|n data]; cbn [sds_valid sds_bits] in *.
  1-3: apply readsF_reads; (apply r_num; [lia|reflexivity|]); cbn -[rfield reads num]; rewrite <- (app_nil_r (num _ v)); (apply r_num; [lia|exact V|]); apply reads_readsF, reads_ret.
  rewrite !andb_true_iff in V. destruct V as [[[V1 V2] V3] V4]. apply Nat.eqb_eq in V2.
  apply readsF_reads. apply r_num; [lia|reflexivity|]. change (3 =? 0) with false. change (3 =? 1) with false. change (3 =? 2) with false. change (3 =? 3) with true. cbv iota.
  apply r_num; [lia|exact V1|]. cbv zeta. rewrite ceil8 in *. rewrite <- (app_nil_r (firstn _ _)).
  apply (r_sub _ _ (Some data)); [|apply reads_readsF, reads_ret].
  intros b rest W E. unfold read_bits_into_slice. rewrite Nat.leb_refl. cbn [assert bind]. rewrite <- V2.
  rewrite (slice_loop_reads data _ [] b rest V2 V3 V4 W E). rewrite firstn_length, bytes_bits_length, Nat.min_l; [reflexivity|].
  rewrite V2. pose proof (Nat.div_mod (N.to_nat n + 7) 8). pose proof (Nat.mod_upper_bound (N.to_nat n + 7) 8). lia.
Qed.

Lemma write_bytes_writes data : forallb (fit 8) data = true ->
  forall k i, (i + k <= length data)%nat -> writes (sds_write_bytes data i k) (bytes_bits (firstn k (skipn i data))).
Proof.
  intros Fi. induction k as [|k IH]; intros i L; cbn [sds_write_bytes firstn]; [apply writes_ret|].
  destruct (nth_error data i) as [x|] eqn:Ex.
  2:{ apply nth_error_None in Ex. lia. }
  apply nth_error_split in Ex as Sp. destruct Sp as (l1 & l2 & Sp & L1).
  assert (skipn i data = x :: skipn (S i) data) as ->.
  { subst data. rewrite <- L1. clear. induction l1 as [|y l1 IH]; [reflexivity|exact IH]. }
  cbn [firstn]. rewrite bytes_bits_cons. apply w_num; [lia| |apply IH; lia].
  rewrite forallb_forall in Fi. apply Fi. subst data. apply in_or_app. right. now left.
Qed.
Lemma bytes_bits_split data : forall n, firstn n (bytes_bits data) = bytes_bits (firstn (n / 8) data) ++ firstn (n mod 8) (bits_of 8 (nth (n / 8) data 0)) \/ (8 * length data < n)%nat \/ length data = (n / 8)%nat.
Proof.
  induction data as [|x data IH]; intros n.
  - destruct (Nat.eq_dec n 0) as [->|]; [right; right; reflexivity|right; left; cbn [length]; lia].
  - destruct (Nat.le_gt_cases 8 n) as [G|G].
    + specialize (IH (n - 8)%nat). assert ((n / 8) = S ((n - 8) / 8))%nat as ED by (replace n with (n - 8 + 1 * 8)%nat at 1 by lia; rewrite Nat.div_add by lia; lia).
      assert (n mod 8 = (n - 8) mod 8)%nat as EM by (replace n with (n - 8 + 1 * 8)%nat at 1 by lia; rewrite Nat.mod_add by lia; reflexivity).
      rewrite ED, EM. cbn [length firstn nth]. rewrite !bytes_bits_cons. destruct IH as [IH|[IH|IH]]; [left|right; left; lia|right; right; lia].
      rewrite firstn_app, firstn_all2 by (rewrite bits_of_length; lia). rewrite bits_of_length, IH, app_assoc. reflexivity.
    + left. rewrite Nat.div_small, Nat.mod_small by lia. cbn [firstn nth]. rewrite bytes_bits_cons, firstn_app, bits_of_length.
      replace (n - 8)%nat with 0%nat by lia. rewrite firstn_O, app_nil_r. reflexivity.
Qed.
Lemma sds_writes d : sds_valid d = true -> writes (sds_to_bitbuf d) (sds_bits d).
Proof.
  intros V. unfold sds_to_bitbuf. destruct d as [v|v|v|n data]; cbn [sds_valid sds_bits sds_type_identifier] in *.
  1-3: (apply w_num; [lia|reflexivity|]); apply writes_field; [lia|now apply fit_lt].
  rewrite !andb_true_iff in V. destruct V as [[[V1 V2] V3] V4]. apply Nat.eqb_eq in V2. rewrite ceil8 in V2.
  apply w_num; [lia|reflexivity|]. apply w_num; [lia|exact V1|]. cbv zeta.
  set (q := N.to_nat (n / 8)). assert (q = N.to_nat n / 8)%nat as Eq by (subst q; rewrite N2Nat.inj_div; reflexivity). clearbody q.
  pose proof (N.mod_lt n 8 ltac:(lia)) as Rb. set (r := n mod 8) in *.
  assert (N.to_nat r = N.to_nat n mod 8)%nat as Er by (subst r; rewrite N2Nat.inj_mod; reflexivity).
  assert (N.to_nat n = 8 * q + N.to_nat r)%nat as En by (rewrite Er, Eq; apply Nat.div_mod; lia).
  clearbody r.
  assert (N.to_nat n <= 8 * length data)%nat as Ln.
  { rewrite V2. pose proof (Nat.div_mod (N.to_nat n + 7) 8). pose proof (Nat.mod_upper_bound (N.to_nat n + 7) 8). lia. }
  destruct (N.ltb_spec 0 r) as [Rp|Rz].
  - destruct (bytes_bits_split data (N.to_nat n)) as [E|[E|E]]; [|lia|rewrite <- Eq in E; lia].
    rewrite E, <- Eq, <- Er. apply writes_then; [exact (write_bytes_writes data V3 q 0 ltac:(lia))|].
    rewrite (nth_error_nth' data 0) by lia.
    rewrite <- byte_prefix by lia. replace (N.of_nat (8 - N.to_nat r)) with (8 - r) by lia. apply writes_field; [lia|].
    replace (8 - r) with (N.of_nat (8 - N.to_nat r)) by lia. apply byte_prefix_fit; [lia|].
    rewrite forallb_forall in V3. apply (fit_lt 8). apply V3. apply nth_In. lia.
  - assert (r = 0) as -> by lia. apply writes_then_r; [|apply writes_ret].
    assert (length data = q) as Lq. { rewrite V2, En. change (N.to_nat 0) with 0%nat. replace (8 * q + 0 + 7)%nat with (7 + q * 8)%nat by lia. rewrite Nat.div_add by lia. reflexivity. }
    rewrite firstn_all2 by (rewrite bytes_bits_length; lia).
    pose proof (write_bytes_writes data V3 q 0 ltac:(lia)) as H. cbn [skipn] in H. rewrite firstn_all2 in H by lia. exact H.
Qed.

(** ** Pre-coded status *)
Definition ssr_ok (t r : N) : bool :=
  let v := 31744 + 256 * t + r in
  (N.lor (N.lor (N.shiftl 31 10) (N.shiftl t 8)) (N.land r 255) =? v) && (N.shiftr v 10 =? 31) && (N.land (N.shiftr v 8) 3 =? t) && (N.land v 255 =? r).
Lemma ssr_ok_all : forallb (fun t => forallb (fun r => ssr_ok (N.of_nat t) (N.of_nat r)) (seq 0 256)) (seq 0 4) = true.
Proof. vm_compute. reflexivity. Qed.
Lemma ssr_value t r : t < 4 -> r < 256 ->
  ssr_to_u16 (mk_ssr t r) = Ok (31744 + 256 * t + r) /\ ssr_from_u16 (31744 + 256 * t + r) = Ok (mk_ssr t r).
Proof.
  intros T R. pose proof ssr_ok_all as A. rewrite forallb_forall in A. specialize (A (N.to_nat t) ltac:(apply in_seq; lia)).
  rewrite forallb_forall in A. specialize (A (N.to_nat r) ltac:(apply in_seq; lia)). rewrite !N2Nat.id in A. unfold ssr_ok in A.
  rewrite !andb_true_iff, !N.eqb_eq in A. destruct A as [[[A1 A2] A3] A4].
  unfold ssr_to_u16, ssr_from_u16. cbn [ssr_type ssr_reference]. rewrite A1, A2, A3, A4.
  destruct (N.leb_spec t 3) as [_|]; [|lia]. now split.
Qed.
Lemma pcs_value_ok p : pcs_valid p = true -> pcs_into_raw p = Ok (pcs_value p) /\ pcs_from_u16 (pcs_value p) = Ok p /\ pcs_value p < 65536.
Proof.
  intros V. destruct p as [|v|[t r]|v]; cbn [pcs_valid pcs_value pcs_into_raw ssr_type ssr_reference] in *; rewrite ?andb_true_iff in V.
  - repeat split.
  - destruct V as [V1 V2]. apply N.leb_le in V1. apply N.ltb_lt in V2. unfold pcs_from_u16.
    destruct (N.eqb_spec v 0); [lia|]. destruct (N.leb_spec v 31742); [|lia]. repeat split. lia.
  - destruct V as [V1 V2]. apply fit_lt in V1, V2. change (2 ^ N.of_nat 2) with 4 in V1. change (2 ^ N.of_nat 8) with 256 in V2.
    destruct (ssr_value t r V1 V2) as [A B]. unfold pcs_from_u16. rewrite A, B.
    destruct (N.eqb_spec (31744 + 256 * t + r) 0); [lia|]. destruct (N.leb_spec (31744 + 256 * t + r) 31742); [lia|].
    destruct (N.leb_spec (31744 + 256 * t + r) 32767); [|lia]. repeat split. lia.
  - destruct V as [V1 V2]. apply N.leb_le in V1. apply fit_lt in V2. change (2 ^ N.of_nat 16) with 65536 in V2. unfold pcs_from_u16.
    destruct (N.eqb_spec v 0); [lia|]. destruct (N.leb_spec v 31742); [lia|]. destruct (N.leb_spec v 32767); [lia|]. repeat split. exact V2.
Qed.
Lemma w_pcs p k L : pcs_valid p = true -> writes k L -> writes (pcs_write p >> k) (pcs_bits p ++ L).
Proof.
  intros V H. destruct (pcs_value_ok p V) as (A & _ & B). apply writes_then; [|exact H].
  assert (writes (wfield (pcs_value p) 16) (pcs_bits p)) as Hw by (apply writes_field; [lia|exact B]).
  intros b W R. unfold pcs_write. rewrite A. exact (Hw b W R).
Qed.
Lemma r_pcs {A} F p (k : pre_coded_status -> reader A) L x : pcs_valid p = true -> readsF F (k p) L x ->
  readsF F (rbind (rfield 16) (fun v => rbind (rlift (pcs_from_u16 v)) k)) (pcs_bits p ++ L) x.
Proof.
  intros V H. destruct (pcs_value_ok p V) as (_ & B & C). apply r_num; [lia|apply N.ltb_lt; exact C|].
  eapply r_lift; [exact B|exact H].
Qed.

(** ** Enumerations with unassigned values *)
Lemma r_try_some {A B} F (o : option B) v (k : B -> reader A) L x : o = Some v -> readsF F (k v) L x -> readsF F (rbind (r_try o) k) L x.
Proof. intros -> H. apply r_retl. exact H. Qed.
Lemma r_try_opt_some {A} F (f : N -> option N) (o : option N) (k : option N -> reader A) L x :
  (forall v, o = Some v -> f v = Some v) -> readsF F (k o) L x -> readsF F (rbind (r_try_opt f o) k) L x.
Proof.
  intros H C. apply (readsF_bind' F _ k [] L o); [|exact C]. destruct o as [v|]; [|apply reads_ret].
  cbn [r_try_opt]. rewrite (H v eq_refl). intros b rest W E. reflexivity || exact (reads_ret (Some v) b rest W E).
Qed.
