(** Bit buffer facts in the form in which the property theorems state them. *)
From Verif Require Import Base BitsLib BitBuffer BitBufferProofs BitBufferOps.
Open Scope N_scope.

Lemma wf_dec b : (((bstart b <=? bpos b) && (bpos b <=? bend b) && (bend b <=? cap b))%nat && forallb (fun x => x <? 256) (bytes b)) = true -> wf b.
Proof.
  intros H. apply andb_true_iff in H as [H1 H2]. unfold wf. repeat split; try lia.
  rewrite Forall_forall. rewrite forallb_forall in H2. intros x Hx. apply H2 in Hx. unfold isbyte. lia.
Qed.


Lemma write_then_read :
  forall (b : bitbuf) (v : N) (n : nat),
    wf b -> (n <= 64)%nat -> v < 2 ^ N.of_nat n ->
    (autoexp b = true \/ (bpos b + n <= bend b)%nat) ->
    exists b', write_bits v n b = Ok b' /\
      bpos b' = (bpos b + n)%nat /\ bstart b' = bstart b /\ autoexp b' = autoexp b /\
      ((bpos b + n <= bend b)%nat -> bend b' = bend b /\ length (bytes b') = length (bytes b)) /\
      (forall i, (bpos b <= i < bpos b + n)%nat -> bit_at (bytes b') i = N.testbit v (N.of_nat (bpos b + n - 1 - i))) /\
      (forall i, (i < bpos b \/ bpos b + n <= i)%nat -> bit_at (bytes b') i = bit_at (bytes b) i) /\
      read_bits_opt (set_pos b' (bpos b)) n = Ok (Some v, b').
Proof.
  intros b v n W Hn Hv R.
  destruct (write_bits_spec b v n W Hn Hv R) as (b' & E & O & _). exists b'. split; [assumption|].
  destruct (wrote_remaining _ _ _ W O) as (W' & rest & HR).
  pose proof O as (W1 & S1 & A1 & P1 & L1 & B1 & E1 & F1 & T1). rewrite bits_of_length in *.
  split; [assumption|]. split; [assumption|]. split; [assumption|]. split; [assumption|].
  split; [|split].
  - intros i Hi. rewrite B1. destruct ((bpos b <=? i) && (i <? bpos b + n))%nat eqn:E2; [|lia].
    rewrite nth_bits_of by lia. f_equal. f_equal. lia.
  - intros i Hi. rewrite B1. destruct ((bpos b <=? i) && (i <? bpos b + n))%nat eqn:E2; [lia|reflexivity].
  - rewrite read_bits_opt_spec by assumption. rewrite HR, app_length, bits_of_length.
    destruct (Nat.leb_spec n (n + length rest)); [|lia].
    rewrite firstn_app, bits_of_length, Nat.sub_diag. cbn [firstn]. rewrite app_nil_r.
    rewrite firstn_all2 by (rewrite bits_of_length; lia). rewrite bits_val_of by assumption.
    do 2 f_equal. unfold adv, set_pos. cbn [bpos bytes bstart bend autoexp]. rewrite <- P1. destruct b'; reflexivity.
Qed.

Lemma write_then_read_example :
  let b := mkbb [255; 0; 170; 85] 3 5 30 false in
  wf b /\ (13 <= 64)%nat /\ 4242 < 2 ^ N.of_nat 13 /\ (autoexp b = true \/ (bpos b + 13 <= bend b)%nat).
Proof. split; [apply wf_dec; reflexivity|]. split; [lia|]. split; [reflexivity|]. right. cbn. lia. Qed.

Lemma write_bulk :
  forall (b : bitbuf) (n : nat), wf b -> room b n ->
    (exists b', write_zeroes n b = Ok b' /\ wrote b b' (repeat false n)) /\
    (exists b', write_ones n b = Ok b' /\ wrote b b' (repeat true n)) /\
    (n = 1%nat -> forall x, exists b', write_bit (N.b2n x) b = Ok b' /\ wrote b b' [x]).
Proof.
  intros b n W R. split; [|split].
  - apply write_zeroes_spec; [assumption|now rewrite repeat_length].
  - apply write_ones_spec; [assumption|now rewrite repeat_length].
  - intros -> x. apply writes_bit; assumption.
Qed.

Lemma histories_refine :
  forall (os : list bop) (b : bitbuf),
    Forall op_ok os -> wf b -> same_outcome (brun b os) (trun (tape_of b) os).
Proof. intros os b Ho W. apply brun_refines; [assumption|]. apply represents_tape_of, W. Qed.

Lemma constructors_wf :
  (forall n, wf (bb_new n)) /\ (forall n, wf (bb_new_autoexpand n)) /\
  (forall l, Forall isbyte l -> wf (bb_from_vec l)) /\
  (forall s, exists b, bb_from_bitstr s = Ok b /\ wf b) /\
  (forall s, exists b, bb_from_bitarr (map N.b2n s) = Ok b /\ wf b) /\
  (forall b, wf b -> exists b', bb_from_bitbuffer b = Ok b' /\ wf b') /\
  (forall b, wf b -> exists b', bb_from_bitbuffer_pos b = Ok b' /\ wf b').
Proof.
  split; [exact wf_new|]. split; [exact wf_new_autoexpand|]. split; [exact wf_from_vec|].
  split; [intros s; destruct (from_bitstr_spec s) as (b & E & W & _); eauto|].
  split; [intros s; destruct (from_bitarr_spec s) as (b & E & W & _); eauto|].
  split; intros b W.
  - destruct (from_bitbuffer_spec b W) as (b' & E & W' & _); eauto.
  - destruct (from_bitbuffer_pos_spec b W) as (b' & E & W' & _); eauto.
Qed.

Lemma histories_example :
  let b := bb_new 100 in
  let os := [OSeek 37; OWriteBits 12345 20; OSetStart 35; OSeek 0; ORead 33; ORead 33; OPeekPos 2 5; OGetRemaining] in
  Forall op_ok os /\ wf b /\ exists b' r, brun b os = Ok (b', r) /\
  r = [RUnit; RUnit; RUnit; RUnit; RVal (Some 25282560); RVal None; RVal (Some 0); RNat 32].
Proof.
  cbv zeta. split; [repeat constructor|]. split; [apply wf_new|].
  eexists. eexists. split; [vm_compute; reflexivity|]. reflexivity.
Qed.

Lemma xor_bit_leaves_window :
  exists b b', wf b /\ xor_bit b 1 = Ok b' /\
    (bend b <= 4)%nat /\ bit_at (bytes b') 4 <> bit_at (bytes b) 4 /\ (bend b' < bpos b')%nat.
Proof.
  exists (mkbb [0] 0 4 4 false). eexists. split; [apply wf_dec; reflexivity|].
  split; [vm_compute; reflexivity|]. cbn [bend bpos bytes]. split; [lia|]. split; [|lia].
  vm_compute. discriminate.
Qed.

Lemma remaining_at_start b : bpos b = bstart b -> remaining b = window b.
Proof. intros H. unfold remaining, window. now rewrite H. Qed.

Lemma conversions_lossless :
  (forall s, exists b, bb_from_bitstr s = Ok b /\ window b = s /\ to_bitstr b = Ok s) /\
  (forall s, exists b b', bb_from_bitarr (map N.b2n s) = Ok b /\ window b = s /\ to_bitarr (length s) b = Ok (map N.b2n s, b')) /\
  (forall b, wf b -> to_bitstr b = Ok (window b)) /\
  (forall b n, wf b -> (n <= length (remaining b))%nat ->
     exists b', to_bitarr n b = Ok (map N.b2n (firstn n (remaining b)), b')) /\
  (forall b, wf b -> exists b', bb_from_bitbuffer b = Ok b' /\ window b' = window b) /\
  (forall b, wf b -> exists b', bb_from_bitbuffer_pos b = Ok b' /\ window b' = remaining b) /\
  (forall l, into_bytes (bb_from_vec l) = l /\ window (bb_from_vec l) = bits_rng l 0 (8 * length l)).
Proof.
  split; [|split; [|split; [|split; [|split; [|split]]]]].
  - intros s. destruct (from_bitstr_spec s) as (b & E & W & P & A & Wi). exists b. split; [assumption|]. split; [assumption|].
    rewrite to_bitstr_spec by assumption. now rewrite Wi.
  - intros s. destruct (from_bitarr_spec s) as (b & E & W & P & A & Wi). exists b.
    assert (remaining b = s) as HR by (rewrite remaining_at_start by assumption; exact Wi).
    eexists. split; [eassumption|]. split; [eassumption|].
    rewrite to_bitarr_spec by (rewrite ?HR; auto). rewrite HR, firstn_all. reflexivity.
  - exact to_bitstr_spec.
  - intros b n W H. eexists. apply to_bitarr_spec; assumption.
  - intros b W. destruct (from_bitbuffer_spec b W) as (b' & E & _ & _ & _ & H). eauto.
  - intros b W. destruct (from_bitbuffer_pos_spec b W) as (b' & E & _ & _ & _ & H). eauto.
  - intros l. split; [reflexivity|apply from_vec_window].
Qed.

Lemma copy_bits_lossless :
  forall src dst n,
    wf src -> wf dst -> (n <= length (remaining src))%nat -> room dst n ->
    exists dst' src', copy_bits n src dst = Ok (dst', src') /\
      written dst' = written dst ++ firstn n (remaining src) /\
      remaining src' = skipn n (remaining src) /\ window src' = window src.
Proof.
  intros src dst n Ws Wd Hn R. destruct (copy_bits_spec n src dst Ws Wd Hn R) as (b' & E & O).
  exists b', (adv src n). split; [assumption|]. split; [apply wrote_written; assumption|].
  split; [apply remaining_adv; assumption|]. reflexivity.
Qed.

Lemma copy_bits_example :
  let src := mkbb [1; 2; 3; 4; 5; 6; 7; 8; 9; 10] 3 6 79 false in
  let dst := mkbb [255] 0 5 8 true in
  wf src /\ wf dst /\ (70 <= length (remaining src))%nat /\ room dst 70.
Proof.
  cbv zeta. split; [apply wf_dec; reflexivity|]. split; [apply wf_dec; reflexivity|].
  split; [rewrite remaining_length; cbn; lia|]. left. reflexivity.
Qed.

Lemma into_bitvec_start0 :
  forall b, wf b -> bstart b = 0%nat -> into_bitvec b = Ok (map N.b2n (window b)).
Proof. intros b W H. rewrite into_bitvec_spec0 by assumption. unfold window. now rewrite H. Qed.

Lemma into_bitvec_wrong :
  exists b r, wf b /\ into_bitvec b = Ok r /\ r <> map N.b2n (window b).
Proof.
  exists (mkbb [128; 127] 8 8 16 false). eexists. split; [apply wf_dec; reflexivity|].
  split; [vm_compute; reflexivity|]. vm_compute. discriminate.
Qed.

Lemma autoexpand_growth :
  forall b v n, wf b -> autoexp b = true -> (n <= 64)%nat -> v < 2 ^ N.of_nat n ->
    exists b', write_bits v n b = Ok b' /\ wf b' /\ bpos b' = (bpos b + n)%nat /\
      (forall i, (i < bpos b \/ bpos b + n <= i)%nat -> bit_at (bytes b') i = bit_at (bytes b) i) /\
      (bpos b' <= bend b')%nat /\
      ((bpos b = bend b \/ bpos b + n <= bend b)%nat -> bend b' = Nat.max (bend b) (bpos b')).
Proof.
  intros b v n W A Hn Hv. destruct (write_bits_spec b v n W Hn Hv (or_introl A)) as (b' & E & O & En).
  exists b'. split; [assumption|]. destruct O as (W1 & S1 & A1 & P1 & L1 & B1 & E1 & F1 & T1). rewrite bits_of_length in *.
  split; [assumption|]. split; [assumption|]. split; [|split].
  - intros i Hi. rewrite B1. destruct ((bpos b <=? i) && (i <? bpos b + n))%nat eqn:E2; [lia|reflexivity].
  - apply W1.
  - intros H. destruct (Nat.leb_spec (bpos b + n) (bend b)); lia.
Qed.
Lemma autoexpand_example :
  let b := mkbb [7] 0 3 3 true in wf b /\ autoexp b = true /\ 77777 < 2 ^ N.of_nat 20 /\ (bpos b = bend b).
Proof. split; [apply wf_dec; reflexivity|]. repeat split. Qed.

Lemma autoexpand_overshoots :
  exists b v n b', wf b /\ autoexp b = true /\ write_bits v n b = Ok b' /\
    bend b' <> Nat.max (bend b) (bpos b').
Proof.
  exists (mkbb [0; 0] 0 2 4 true), 5, 3%nat. eexists. split; [apply wf_dec; reflexivity|].
  split; [reflexivity|]. split; [vm_compute; reflexivity|]. vm_compute. discriminate.
Qed.
