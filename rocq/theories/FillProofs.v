(** Fill bits: proofs. *)
From Coq Require Import Arith.
From Verif Require Import Base BitsLib BitBuffer BitBufferProofs BitBufferOps Codec FillBits FragSpec.
Open Scope N_scope.

Lemma drop_pad_zeros k t : drop_pad (repeat false k ++ t) = drop_pad t.
Proof. induction k as [|k IH]; [reflexivity|]. exact IH. Qed.
Lemma rev_repeat {A} (x : A) k : rev (repeat x k) = repeat x k.
Proof. induction k as [|k IH]; [reflexivity|]. cbn [repeat rev]. rewrite IH, <- repeat_cons. reflexivity. Qed.
Lemma strip_pad s k : (0 < k)%nat -> strip (s ++ pad k) = s.
Proof.
  intros H. destruct k as [|k]; [lia|]. unfold strip, pad. rewrite rev_app_distr. cbn [rev]. rewrite rev_repeat, <- app_assoc, drop_pad_zeros.
  cbn [app drop_pad]. apply rev_involutive.
Qed.
Lemma pad_length k : length (pad k) = k.
Proof. destruct k; [reflexivity|]. cbn [pad length]. now rewrite repeat_length. Qed.

(** What the loop computes, on the list of the bits below index [n]. *)
Lemma nfb_loop_spec b len n : wf b -> (bstart b + n <= bend b)%nat -> (n <= len)%nat ->
  nfb_loop b (bpos b - bstart b) len n =
  Ok (let body := skipn (bpos b - bstart b) (firstn n (window b)) in
      if existsb (fun x => x) body then (len - n + (length body - length (strip body)))%nat else 0%nat).
Proof.
  intros W. induction n as [|i IH]; intros Hn Hl.
  - cbn [nfb_loop firstn]. rewrite skipn_nil. reflexivity.
  - cbn [nfb_loop]. set (pos := (bpos b - bstart b)%nat) in *.
    assert (HW : length (window b) = (bend b - bstart b)%nat) by (unfold window; apply bits_rng_length).
    destruct (Nat.leb_spec pos i) as [Hp|Hp].
    + rewrite peek_startoffset_spec by (assumption || lia). destruct (Nat.leb_spec (bstart b + i + 1) (bend b)); [|lia]. cbn [bind unwrap].
      assert (E : bits_rng (bytes b) (bstart b + i) 1 = [nth i (window b) false]).
      { unfold window. rewrite nth_bits_rng by lia. reflexivity. }
      rewrite E.
      assert (EB : skipn pos (firstn (S i) (window b)) = skipn pos (firstn i (window b)) ++ [nth i (window b) false]).
      { assert (E1 : firstn (S i) (window b) = firstn i (window b) ++ [nth i (window b) false]).
        { clear - HW Hn. assert (Hi : (i < length (window b))%nat) by lia. revert Hi. generalize (window b). clear. induction i as [|i IH]; intros l Hi; destruct l; cbn in Hi; try lia; [reflexivity|].
          cbn [firstn nth app]. rewrite <- IH by lia. reflexivity. }
        rewrite E1, skipn_app, firstn_length. replace (pos - Nat.min i (length (window b)))%nat with 0%nat by lia. reflexivity. }
      cbv zeta. rewrite EB. rewrite existsb_app. cbn [existsb]. unfold strip. rewrite rev_app_distr, !app_length. cbn [rev app length drop_pad].
      destruct (nth i (window b) false).
      * change (bits_val [true] =? 0) with false. cbn iota. rewrite rev_involutive. rewrite Bool.orb_true_r. f_equal. lia.
      * change (bits_val [false] =? 0) with true. cbn iota. rewrite IH by lia. cbv zeta. rewrite !Bool.orb_false_r. f_equal. unfold strip.
        destruct (existsb _ _) eqn:EX; [|reflexivity].
        assert (length (rev (drop_pad (rev (skipn pos (firstn i (window b)))))) <= length (skipn pos (firstn i (window b))))%nat; [|lia].
        rewrite rev_length. rewrite <- (rev_length (skipn pos (firstn i (window b)))). generalize (rev (skipn pos (firstn i (window b)))).
        intros l. induction l as [|x l IHl]; [cbn; lia|]. destruct x; cbn [drop_pad length]; lia.
    + rewrite skipn_all2 by (rewrite firstn_length; lia). reflexivity.
Qed.

Lemma num_fill_spec b len : wf b -> (len <= length (window b))%nat ->
  get_num_fill_bits b len =
  Ok (let body := skipn (bpos b - bstart b) (firstn len (window b)) in
      if existsb (fun x => x) body then (length body - length (strip body))%nat else 0%nat).
Proof.
  intros W H. unfold get_num_fill_bits, get_pos, sub_checked. pose proof W as (W1 & W2 & _). destruct (Nat.leb_spec (bstart b) (bpos b)); [|lia].
  cbn [bind]. unfold window in H. rewrite bits_rng_length in H. rewrite nfb_loop_spec by (assumption || lia). f_equal. cbv zeta.
  destruct (existsb _ _); [lia|reflexivity].
Qed.
(** A padded SDU behind an already read header is recovered exactly. *)
Lemma num_fill_exact b hdr sdu k rest :
  wf b -> window b = hdr ++ sdu ++ pad k ++ rest -> (bpos b - bstart b)%nat = length hdr -> (0 < k)%nat ->
  get_num_fill_bits b (length hdr + length sdu + k) = Ok k.
Proof.
  intros W E P K. rewrite num_fill_spec; [|assumption|rewrite E, !app_length, pad_length; lia].
  assert (EB : skipn (bpos b - bstart b) (firstn (length hdr + length sdu + k) (window b)) = sdu ++ pad k).
  { rewrite P, E. replace (length hdr + length sdu + k)%nat with (length hdr + (length sdu + k))%nat by lia. rewrite firstn_app_2, skipn_app, skipn_all, Nat.sub_diag.
    cbn [app skipn]. rewrite app_assoc. rewrite firstn_app. rewrite app_length, pad_length. rewrite Nat.sub_diag. cbn [firstn]. rewrite app_nil_r, firstn_all2; [reflexivity|].
    rewrite app_length, pad_length. lia. }
  cbv zeta. rewrite EB, strip_pad by assumption. rewrite app_length, pad_length. rewrite existsb_app.
  destruct k; [lia|]. cbn [pad existsb orb]. rewrite Bool.orb_true_r. f_equal. lia.
Qed.
(** Nothing but zeroes: no fill bits. *)
Lemma num_fill_none b len : wf b -> (len <= length (window b))%nat ->
  (forall i, (bpos b - bstart b <= i < len)%nat -> nth i (window b) false = false) -> get_num_fill_bits b len = Ok 0%nat.
Proof.
  intros W H Z. rewrite num_fill_spec by assumption. cbv zeta.
  destruct (existsb _ _) eqn:E; [|reflexivity]. apply existsb_exists in E. destruct E as (x & I & X). destruct x; [|discriminate]. exfalso.
  apply In_nth with (d := false) in I. destruct I as (i & Hi & EN). rewrite skipn_length, firstn_length in Hi. rewrite nth_skipn' in EN.
  rewrite nth_firstn' in EN by lia. rewrite Z in EN by lia. discriminate.
Qed.
(** Outside the window the receiver panics ([unwrap] of [None]). *)
Lemma num_fill_panics b len : wf b -> (length (window b) < len)%nat -> (bpos b - bstart b < len)%nat -> get_num_fill_bits b len = Panic.
Proof.
  intros W H HP. unfold get_num_fill_bits, get_pos, sub_checked. pose proof W as (W1 & W2 & _). destruct (Nat.leb_spec (bstart b) (bpos b)); [|lia].
  cbn [bind]. destruct len as [|i]; [lia|]. cbn [nfb_loop]. destruct (Nat.leb_spec (bpos b - bstart b) i); [|lia].
  rewrite peek_startoffset_spec by (assumption || lia). unfold window in H. rewrite bits_rng_length in H.
  destruct (Nat.leb_spec (bstart b + i + 1) (bend b)); [lia|]. reflexivity.
Qed.

Lemma fill_bytealigned_spec len : ((len + fill_bytealigned len) mod 8 = 0)%nat /\ (fill_bytealigned len < 8)%nat /\
  forall k, ((len + k) mod 8 = 0)%nat -> (fill_bytealigned len <= k)%nat.
Proof.
  unfold fill_bytealigned. pose proof (Nat.div_mod_eq len 8) as E. pose proof (Nat.mod_upper_bound len 8 ltac:(lia)) as U.
  set (r := (len mod 8)%nat) in *. set (q := (len / 8)%nat) in *.
  assert (HF : forall m, (m < 8)%nat -> ((8 - m) mod 8 = if m =? 0 then 0 else 8 - m)%nat) by (intros m Hm; do 8 (destruct m as [|m]; [reflexivity|]); lia).
  rewrite HF by assumption. split.
  - destruct (Nat.eqb_spec r 0).
    + replace (len + 0)%nat with (q * 8)%nat by lia. apply Nat.mod_mul. lia.
    + replace (len + (8 - r))%nat with ((q + 1) * 8)%nat by lia. apply Nat.mod_mul. lia.
  - split; [destruct (Nat.eqb_spec r 0); lia|]. intros k Hk. destruct (Nat.eqb_spec r 0); [lia|].
    pose proof (Nat.div_mod_eq (len + k) 8). lia.
Qed.
Lemma fill_required_spec len cap :
  ((cap <= len)%nat -> fill_required len cap = 0%nat) /\
  ((len <= cap)%nat -> (len + fill_required len cap <= cap)%nat /\
     (((len + fill_required len cap) mod 8 = 0)%nat \/ (len + fill_required len cap = cap)%nat) /\ (fill_required len cap < 8)%nat).
Proof.
  unfold fill_required. destruct (fill_bytealigned_spec len) as (F1 & F2 & _). split; intros H; destruct (Nat.leb_spec cap len); try lia;
   destruct (Nat.leb_spec (len + fill_bytealigned len) cap); lia.
Qed.
(** Writing fill bits. *)
Lemma pad_split n : (0 < n)%nat -> pad n = [true] ++ repeat false (n - 1).
Proof. intros H. destruct n as [|n]; [lia|]. cbn [pad app]. now rewrite Nat.sub_succ, Nat.sub_0_r. Qed.
Lemma fill_write_some n : writes (fill_write (Some n)) (pad n).
Proof.
  unfold fill_write. destruct (Nat.ltb_spec 0 n) as [H|H].
  - rewrite pad_split by assumption. apply (writes_seq (write_bit 1) (write_zeroes (n - 1))); [exact (writes_bit true)|apply write_zeroes_spec].
  - assert (n = 0)%nat as -> by lia. intros b W _. exists b. split; [reflexivity|]. apply wrote_nil, W.
Qed.
Lemma fill_write_none b : wf b -> autoexp b = false -> exists b', fill_write None b = Ok b' /\ wrote b b' (pad (length (remaining b))).
Proof.
  intros W A. pose proof W as (W1 & W2 & W3 & W4). unfold fill_write, get_len_remaining, sub_checked. destruct (Nat.leb_spec (bpos b) (bend b)); [|lia]. cbn [bind].
  unfold remaining. rewrite bits_rng_length. destruct (Nat.ltb_spec 0 (bend b - bpos b)) as [H1|H1].
  - destruct (writes_bit true b W) as (b1 & E1 & O1); [right; cbn [length]; lia|]. cbn [N.b2n] in E1. rewrite E1. cbn [bind].
    pose proof O1 as (V1 & S1 & A1 & P1 & L1 & B1 & D1 & F1 & T1). cbn [length] in *. destruct F1 as [F1 F2]; [lia|].
    destruct (Nat.leb_spec (bpos b1) (bend b1)); [|lia]. cbn [bind].
    destruct (write_zeroes_spec (bend b1 - bpos b1) b1 V1) as (b2 & E2 & O2); [right; rewrite repeat_length; lia|].
    exists b2. split; [exact E2|]. rewrite pad_split by assumption. replace (bend b - bpos b - 1)%nat with (bend b1 - bpos b1)%nat by lia. exact (wrote_trans _ _ _ _ _ O1 O2).
  - replace (bend b - bpos b)%nat with 0%nat by lia. exists b. split; [reflexivity|]. apply wrote_nil, W.
Qed.
