(** The control-channel chain: encode, scramble, transmit with at most one bit error, descramble, decode. *)
From Coq Require Import Permutation.
From Verif Require Import Base BitsLib BitBuffer BitBufferProofs BitBufferOps BitBufferFacts ArrCopy ArrCopyProofs Scrambler Interleaver InterleaverProofs LmacSpec ScramblerProofs
  Crc16 Crc16Proofs ConvEnc Trellis ConvDist Viterbi ViterbiProofs AachProofs ErrorControl.
Open Scope nat_scope.

(** ** More about puncturing *)
Lemma psel_firstn {A} per ps (d : A) : forall q q' c, q <= q' -> firstn (length ps * q) (psel per ps d q' c) = psel per ps d q c.
Proof.
  induction q as [|q IH]; intros q' c L.
  - rewrite Nat.mul_0_r. reflexivity.
  - destruct q' as [|q']; [lia|]. cbn [psel]. rewrite firstn_app, map_length. replace (length ps * S q - length ps) with (length ps * q) by lia. rewrite firstn_all2 by (rewrite map_length; lia). f_equal. apply IH. lia.
Qed.
Lemma psel_prefix {A} per ps (d : A) : (forall x, In x ps -> x < per) -> forall q a b, length a = per * q -> psel per ps d q (a ++ b) = psel per ps d q a.
Proof.
  intros H. induction q as [|q IH]; intros a b L; [reflexivity|]. cbn [psel]. f_equal.
  - apply map_ext_in. intros x Hx. apply H in Hx. rewrite app_nth1; [reflexivity|lia].
  - rewrite skipn_app. replace (per - length a) with 0 by lia. cbn [skipn]. apply IH. rewrite skipn_length. lia.
Qed.
Lemma dep_firstn {A} t per ps (e : A) : forall q y, dep t per ps e q y = dep t per ps e q (firstn (t * q) y).
Proof.
  induction q as [|q IH]; intros y; [reflexivity|]. cbn [dep]. f_equal.
  - f_equal. rewrite firstn_firstn. f_equal. lia.
  - rewrite IH. rewrite (IH (skipn t (firstn (t * S q) y))). rewrite skipn_firstn_comm. replace (t * S q - t) with (t * q) by lia. rewrite firstn_firstn, Nat.min_id. reflexivity.
Qed.

(** ** Polymorphic copies *)
Lemma block_interleave_map {A B} (f : A -> B) k a x o : block_interleave k a (map f x) (map f o) = match block_interleave k a x o with Ok l => Ok (map f l) | Err e => Err e | Panic => Panic end.
Proof.
  unfold block_interleave. rewrite !map_length. destruct (_ && _)%bool; [|reflexivity]. cbn [assert bind]. destruct (interl_pairs k a false (seq 1 k)); [|reflexivity|reflexivity]. cbn [bind]. apply copy_idx_map.
Qed.
Lemma block_deinterleave_map {A B} (f : A -> B) k a x o : block_deinterleave k a (map f x) (map f o) = match block_deinterleave k a x o with Ok l => Ok (map f l) | Err e => Err e | Panic => Panic end.
Proof.
  unfold block_deinterleave. rewrite !map_length. destruct (_ && _)%bool; [|reflexivity]. cbn [assert bind]. destruct (interl_pairs k a true (seq 1 k)); [|reflexivity|reflexivity]. cbn [bind]. apply copy_idx_map.
Qed.
Lemma repeat_b2n n : repeat 0%N n = map N.b2n (repeat false n).
Proof. induction n as [|n IH]; [reflexivity|]. cbn [repeat map]. now rewrite IH. Qed.

(** ** Hamming distance is invariant under a permutation of the positions *)
Lemma hamming_count a : forall b, length a = length b -> hamming a b = length (filter (fun i => negb (Bool.eqb (nth i a false) (nth i b false))) (seq 0 (length a))).
Proof.
  induction a as [|x a IH]; intros [|y b] L; try discriminate; [reflexivity|]. cbn [hamming length seq filter]. change (nth 0 (x :: a) false) with x. change (nth 0 (y :: b) false) with y. rewrite (IH b) by (now injection L).
  assert (E : length (filter (fun i => negb (Bool.eqb (nth i (x :: a) false) (nth i (y :: b) false))) (seq 1 (length a))) = length (filter (fun i => negb (Bool.eqb (nth i a false) (nth i b false))) (seq 0 (length a)))).
  { rewrite <- seq_shift. generalize (seq 0 (length a)). intros l. induction l as [|i l IHl]; [reflexivity|]. cbn [map filter]. change (nth (S i) (x :: a) false) with (nth i a false). change (nth (S i) (y :: b) false) with (nth i b false). destruct (Bool.eqb (nth i a false) (nth i b false)); cbn [negb length]; now rewrite IHl. }
  destruct (Bool.eqb x y); cbn [negb length]; rewrite E; reflexivity.
Qed.
Lemma filter_perm {A} (p : A -> bool) l l' : Permutation l l' -> length (filter p l) = length (filter p l').
Proof. intros P. induction P; cbn [filter]; try reflexivity; try (destruct (p x), (p y); reflexivity); try (destruct (p x); cbn [length]; congruence); congruence. Qed.
Lemma filter_map_len {A B} (g : A -> B) p l : length (filter p (map g l)) = length (filter (fun x => p (g x)) l).
Proof. induction l as [|x l IH]; [reflexivity|]. cbn [map filter]. destruct (p (g x)); cbn [length]; now rewrite IH. Qed.
Lemma hamming_perm (f : nat -> nat) k a b a' b' : (forall i, i < k -> f i < k) -> (forall i j, i < k -> j < k -> f i = f j -> i = j) ->
  length a = k -> length b = k -> length a' = k -> length b' = k ->
  (forall i, i < k -> nth (f i) a' false = nth i a false) -> (forall i, i < k -> nth (f i) b' false = nth i b false) -> hamming a b = hamming a' b'.
Proof.
  intros F I La Lb La' Lb' Ha Hb. rewrite !hamming_count by congruence. rewrite La, La'. set (P := fun i => negb (Bool.eqb (nth i a' false) (nth i b' false))).
  transitivity (length (filter P (map f (seq 0 k)))).
  - rewrite filter_map_len. f_equal. apply filter_ext_in. intros i Hi. apply in_seq in Hi. unfold P. rewrite Ha, Hb by lia. reflexivity.
  - apply filter_perm. apply NoDup_Permutation_bis.
    + apply NoDup_nth with (d := f 0). rewrite map_length, seq_length. intros i j Hi Hj E. rewrite !map_nth, !seq_nth in E by assumption. cbn [Nat.add] in E. now apply I.
    + now rewrite map_length.
    + intros x Hx. apply in_map_iff in Hx. destruct Hx as (i & <- & Hi). apply in_seq in Hi. apply in_seq. specialize (F i). lia.
Qed.
Lemma hamming_xor a e : length a = length e -> hamming (xorl a e) a = weight e.
Proof.
  revert e. induction a as [|x a IH]; intros [|y e] L; try discriminate; [reflexivity|]. unfold xorl in *. cbn [combine map hamming weight fst snd]. rewrite IH by (now injection L). destruct x, y; reflexivity.
Qed.

(** ** Rate 2/3 *)
Definition PS23 : list nat := [0; 1; 4].
Definition W23 : list nat := [0; 2; 2; 2; 3; 3; 3; 3; 3; 3; 3; 3; 4; 2; 4; 4].
Lemma cch_len : length CCH_GENERATORS = 4.
Proof. reflexivity. Qed.
Lemma idx23 q x : x < 3 -> punct_index Rate2_3 (3 * q + x + 1) = 8 * q + nth x PS23 0.
Proof.
  intros X. unfold punct_index. cbn [get_puncturer]. replace (3 * q + x + 1 - 1) with (x + q * 3) by lia. rewrite Nat.div_add by lia. rewrite (Nat.div_small x 3) by assumption. rewrite Nat.add_0_l.
  replace (3 * q + x + 1 - 3 * q) with (x + 1) by lia. destruct x as [|[|[|x]]]; cbn [nth Nat.add PS23]; lia.
Qed.
Lemma pot23 : pot_check CCH_GENERATORS 2 PS23 W23 4 = true.
Proof. vm_compute. reflexivity. Qed.
Lemma mm23 cb ys : length cb = 8 -> length ys = 3 -> mismatches cb (dblock 8 PS23 None (map Some ys)) = hamming (map (fun x => nth x cb false) PS23) ys.
Proof.
  intros L1 L2. do 9 (destruct cb as [|? cb]; try discriminate L1). do 4 (destruct ys as [|? ys]; try discriminate L2). reflexivity.
Qed.
Lemma lt23 x : In x PS23 -> x < 8.
Proof. cbn. intuition lia. Qed.
Lemma nd23 : NoDup PS23.
Proof. repeat constructor; cbn; intuition discriminate. Qed.

Lemma lt03 : 0 < 3.
Proof. lia. Qed.
Definition mism23 := mism_dep CCH_GENERATORS Rate2_3 3 8 2 PS23 eq_refl eq_refl lt23 idx23 lt03 mm23.
Definition near23 := near_unique CCH_GENERATORS Rate2_3 3 8 2 PS23 eq_refl eq_refl lt23 idx23 lt03 mm23 W23 4 pot23 eq_refl.
Definition punct23 A := @punct_spec CCH_GENERATORS Rate2_3 3 8 2 PS23 eq_refl eq_refl lt23 idx23 lt03 A.
Definition depunct23 A := @depunct_spec CCH_GENERATORS Rate2_3 3 8 2 PS23 eq_refl eq_refl lt23 nd23 idx23 lt03 A.

Definition enc_sym (o : option bool) : N := match o with Some b => N.b2n b | None => 255%N end.
Lemma to_soft_map r : to_soft (map enc_sym r) = Ok (map soft r).
Proof. induction r as [|[[]|] r IH]; [reflexivity| | |]; cbn [map to_soft enc_sym N.b2n N.eqb Pos.eqb bind]; rewrite IH; reflexivity. Qed.
Lemma map_some_enc y : map N.b2n y = map enc_sym (map Some y).
Proof. rewrite map_map. reflexivity. Qed.

(** Decoding a punctured word with fewer than 2 errors gives the message. *)
Lemma viterbi_23 q msg y : 1 <= q <= 144 -> length msg = 2 * q -> terminated msg -> length y = 3 * q -> hamming (psel 8 PS23 false q (conv_code CCH_GENERATORS msg)) y <= 1 ->
  viterbi_decode cch_polys (map soft (dep 3 8 PS23 None q (map Some y))) = Ok (map N.b2n msg).
Proof.
  intros Q L T LY H. destruct (viterbi_optimal CCH_GENERATORS (dep 3 8 PS23 None q (map Some y)) (2 * q)) as (m & E & LM & TM & O).
  - discriminate.
  - repeat constructor.
  - rewrite dep_length, cch_len. lia.
  - rewrite cch_len. lia.
  - change cch_polys with CCH_GENERATORS. rewrite E. do 2 f_equal. specialize (O msg L T). rewrite !mism23 in O by (rewrite ?conv_code_length, ?cch_len, ?LM, ?L; lia).
    apply (near23 q m msg y); try assumption. lia.
Qed.

(** ** The message that is convolutionally coded *)
Definition type2_msg (bits : list bool) : list bool := bits ++ bits_of 16 (not16 (crc_run 0xffff bits)) ++ repeat false 4.
Lemma type2_len bits : length (type2_msg bits) = length bits + 20.
Proof. unfold type2_msg. rewrite !app_length, bits_of_length, repeat_length. lia. Qed.
Lemma type2_term bits : terminated (type2_msg bits).
Proof.
  intros i Hi. rewrite type2_len in Hi. unfold type2_msg. rewrite app_assoc, app_nth2 by (rewrite app_length, bits_of_length; lia). apply nth_repeat.
Qed.
Lemma crc_of_bits bits k : length bits = k -> crc16_ccitt_bits (map N.b2n bits) k = crc_run 0xffff bits.
Proof. intros <-. unfold crc16_ccitt_bits, crc16_itut_bits. rewrite firstn_all2 by (rewrite map_length; lia). apply crc_run_eq. Qed.

Section Chain.
  Variables (q a : nat).
  Hypothesis Hq : 10 < q <= 144.
  Hypothesis Ha : Nat.gcd a (3 * q) = 1.
  Hypothesis Hu : (N.of_nat a * N.of_nat (3 * q) < 2 ^ 32)%N.

  Definition type3_of (msg : list bool) : list bool := psel 8 PS23 false q (conv_code CCH_GENERATORS msg).

  Lemma encode_core bits : length bits = 2 * q - 20 ->
    exists t4, (type2 <- blit (repeat 0%N MAX_TYPE2_BITS) 0 (map N.b2n bits) ;;
      t1' <- slice type2 0 (2 * q - 20) ;;
      let crc := not16 (crc16_ccitt_bits t1' (2 * q - 20)) in
      type2 <- blit type2 (2 * q - 20) (crc_bits crc) ;;
      t2 <- slice type2 0 (2 * q) ;;
      ' (type3dp, _) <- cch_encode cstate_new t2 (repeat 0%N (MAX_TYPE345_BITS * 4)) ;;
      type3 <- get_punctured_rate Rate2_3 type3dp (repeat 0%N MAX_TYPE345_BITS) ;;
      type4 <- block_interleave (3 * q) a type3 (repeat 0%N MAX_TYPE345_BITS) ;;
      slice type4 0 (3 * q)) = Ok (map N.b2n t4) /\ length t4 = 3 * q /\ forall i, i < 3 * q -> nth (il (3 * q) a i) t4 false = nth i (type3_of (type2_msg bits)) false.
  Proof.
    intros L. assert (M2 : MAX_TYPE2_BITS = 288) by reflexivity. assert (M3 : MAX_TYPE345_BITS = 432) by reflexivity.
    rewrite blit_ok by (rewrite map_length, repeat_length; lia). cbn [bind]. rewrite slice_ok by (rewrite app_length, app_length, map_length, skipn_length, repeat_length; cbn [firstn length]; lia). cbn [bind].
    change (firstn 0 (repeat 0%N MAX_TYPE2_BITS)) with (@nil N). cbn [app skipn]. rewrite firstn_app, map_length, L, Nat.sub_diag. cbn [firstn]. rewrite app_nil_r. rewrite firstn_all2 by (rewrite map_length; lia). rewrite (crc_of_bits bits (2 * q - 20) L). cbv zeta.
    rewrite crc_bits_bits_of. set (cb := bits_of 16 (not16 (crc_run 0xffff bits))). assert (LC : length cb = 16) by apply bits_of_length.
    assert (SK : skipn (0 + length (map N.b2n bits)) (repeat 0%N MAX_TYPE2_BITS) = map N.b2n (repeat false (308 - 2 * q))).
    { rewrite map_length, L. rewrite <- repeat_b2n. replace MAX_TYPE2_BITS with ((0 + (2 * q - 20)) + (308 - 2 * q)) by lia. rewrite repeat_app, skipn_app, repeat_length, Nat.sub_diag. rewrite skipn_all2 by (rewrite repeat_length; lia). reflexivity. }
    replace (0 + (2 * q - 20)) with (0 + length (map N.b2n bits)) by (rewrite map_length; lia). rewrite SK. rewrite <- map_app.
    rewrite blit_ok by (rewrite !map_length, !app_length, repeat_length, LC; lia). cbn [bind]. rewrite map_length, LC. rewrite firstn_map, skipn_map, firstn_app, L, Nat.sub_diag. cbn [firstn]. rewrite app_nil_r, firstn_all2 by lia.
    rewrite skipn_app, L. rewrite skipn_all2 by lia. cbn [app]. replace (2 * q - 20 + 16 - (2 * q - 20)) with 16 by lia. replace (repeat false (308 - 2 * q)) with (repeat false 16 ++ repeat false (292 - 2 * q)) by (rewrite <- repeat_app; f_equal; lia).
    rewrite skipn_app, repeat_length, Nat.sub_diag. rewrite skipn_all2 by (rewrite repeat_length; lia). cbn [app skipn]. rewrite <- !map_app.
    rewrite slice_ok by (rewrite map_length, !app_length, repeat_length, LC; lia). cbn [bind skipn].
    assert (T2 : firstn (2 * q) (map N.b2n (bits ++ cb ++ repeat false (292 - 2 * q))) = map N.b2n (type2_msg bits)).
    { rewrite firstn_map. f_equal. unfold type2_msg. fold cb. replace (repeat false (292 - 2 * q)) with (repeat false 4 ++ repeat false (288 - 2 * q)) by (rewrite <- repeat_app; f_equal; lia).
      rewrite (app_assoc cb), app_assoc. rewrite firstn_app. rewrite firstn_all2 by (rewrite !app_length, repeat_length; lia). replace (2 * q - length (bits ++ cb ++ repeat false 4)) with 0 by (rewrite !app_length, repeat_length; lia). cbn [firstn]. apply app_nil_r. }
    rewrite T2. set (msg := type2_msg bits). assert (LM : length msg = 2 * q) by (unfold msg; rewrite type2_len; lia).
    unfold cch_encode. rewrite map_length, repeat_length, LM. destruct (Nat.leb_spec (2 * q * 4) (MAX_TYPE345_BITS * 4)); [|lia]. cbn [assert bind].
    destruct (enc_loop_spec cch_encode_bit CCH_GENERATORS cch_enc_ok msg false false false false) as (b1 & b2 & b3 & b4 & EE & _). change cstate_new with (cst false false false false). rewrite EE. change (st false false false false) with 0. rewrite <- conv_tcode.
    set (c := conv_code CCH_GENERATORS msg). assert (LCC : length c = 8 * q) by (unfold c; rewrite conv_code_length, cch_len, LM; lia).
    rewrite blit_ok by (rewrite map_length, repeat_length; lia). cbn [bind firstn app]. change (firstn 0 (repeat 0%N (MAX_TYPE345_BITS * 4))) with (@nil N). cbn [app].
    rewrite repeat_b2n, skipn_map, <- map_app. set (cz := c ++ skipn (0 + length (map N.b2n c)) (repeat false (MAX_TYPE345_BITS * 4))).
    assert (LZ : length cz = 1728) by (unfold cz; rewrite app_length, skipn_length, repeat_length, map_length; lia).
    assert (PE : get_punctured_rate Rate2_3 (map N.b2n cz) (repeat 0%N MAX_TYPE345_BITS) = Ok (psel 8 PS23 (N.b2n false) 144 (map N.b2n cz))) by (change MAX_TYPE345_BITS with (3 * 144); apply punct23; rewrite map_length; lia).
    rewrite PE. cbn [bind]. rewrite psel_map.
    set (t3 := psel 8 PS23 false 144 cz). assert (L3 : length t3 = 432) by (unfold t3; rewrite psel_length; reflexivity).
    rewrite repeat_b2n, block_interleave_map. destruct (interleave_spec (3 * q) a ltac:(lia) Ha Hu t3 (repeat false MAX_TYPE345_BITS)) as (t4 & E4 & L4 & H4 & _); [lia|rewrite repeat_length; lia|]. rewrite E4. cbn [bind]. rewrite repeat_length in L4.
    rewrite slice_ok by (rewrite map_length; lia). cbn [skipn]. exists (firstn (3 * q) t4). rewrite firstn_map. split; [reflexivity|]. split; [rewrite firstn_length; lia|].
    intros i Hi. assert (IL : il (3 * q) a i < 3 * q) by (apply il_range; lia). rewrite nth_firstn' by assumption. rewrite H4 by assumption. unfold type3_of. fold c.
    assert (F3 : psel 8 PS23 false q c = firstn (3 * q) t3).
    { unfold t3. change (3 * q) with (length PS23 * q). rewrite psel_firstn by lia. unfold cz. symmetry. apply psel_prefix; [exact lt23|assumption]. }
    rewrite F3. symmetry. apply nth_firstn'. assumption.
  Qed.

  Lemma decode_core bits t4 e : length bits = 2 * q - 20 -> length t4 = 3 * q -> (forall i, i < 3 * q -> nth (il (3 * q) a i) t4 false = nth i (type3_of (type2_msg bits)) false) -> length e = 3 * q -> weight e <= 1 ->
    exists rest, (type4 <- blit (repeat 0%N MAX_TYPE345_BITS) 0 (map N.b2n (xorl t4 e)) ;;
      type3 <- block_deinterleave (3 * q) a type4 (repeat 0%N MAX_TYPE345_BITS) ;;
      type3dp <- rcpc_depunct Rate2_3 type3 (3 * q) (repeat 255%N (MAX_TYPE345_BITS * 4)) ;;
      dec_sb1 type3dp (repeat 0%N MAX_TYPE2_BITS) (2 * q)) = Ok (map N.b2n (type2_msg bits) ++ rest).
  Proof.
    intros LBt L4 H4 LE WE. assert (M2 : MAX_TYPE2_BITS = 288) by reflexivity. assert (M3 : MAX_TYPE345_BITS = 432) by reflexivity. set (msg := type2_msg bits) in *. assert (LM : length msg = 2 * q) by (unfold msg; rewrite type2_len; lia).
    assert (LX : length (xorl t4 e) = 3 * q) by (rewrite xorl_length; congruence).
    rewrite blit_ok by (rewrite map_length, repeat_length; lia). cbn [bind]. change (firstn 0 (repeat 0%N MAX_TYPE345_BITS)) with (@nil N). cbn [app]. rewrite repeat_b2n, skipn_map, <- map_app. set (xz := xorl t4 e ++ _).
    assert (LZ : length xz = 432) by (unfold xz; rewrite app_length, skipn_length, repeat_length, map_length; lia).
    rewrite block_deinterleave_map. destruct (deinterleave_spec (3 * q) a ltac:(lia) Ha Hu xz (repeat false MAX_TYPE345_BITS)) as (t3 & E3 & L3 & H3 & _); [lia|rewrite repeat_length; lia|]. rewrite E3. cbn [bind]. rewrite repeat_length in L3.
    set (y := firstn (3 * q) t3). assert (LY : length y = 3 * q) by (unfold y; rewrite firstn_length; lia).
    rewrite map_some_enc. replace (MAX_TYPE345_BITS * 4) with (8 * q + (1728 - 8 * q)) by lia. rewrite depunct23 by (rewrite !map_length; lia). cbn [bind].
    change 255%N with (enc_sym None) at 1. rewrite dep_map, dep_firstn, firstn_map. fold y. set (r := dep 3 8 PS23 None q (map Some y)). assert (LR : length r = 8 * q) by apply dep_length.
    unfold dec_sb1. destruct (Nat.leb_spec (2 * q) 864); [|lia]. rewrite app_length, map_length, !repeat_length, LR. destruct (Nat.leb_spec (2 * q * 4) (8 * q + (1728 - 8 * q))); [|lia]. destruct (Nat.leb_spec (2 * q) MAX_TYPE2_BITS); [|lia]. cbn [assert bind].
    rewrite firstn_app, map_length, LR. replace (2 * q * 4 - 8 * q) with 0 by lia. cbn [firstn]. rewrite app_nil_r, firstn_all2 by (rewrite map_length; lia). rewrite to_soft_map. cbn [bind].
    assert (HD : hamming (psel 8 PS23 false q (conv_code CCH_GENERATORS msg)) y <= 1).
    { fold (type3_of msg). rewrite hamming_sym. replace (hamming y (type3_of msg)) with (hamming (xorl t4 e) t4); [rewrite hamming_xor by congruence; assumption|]. symmetry.
      apply (hamming_perm (il (3 * q) a) (3 * q)); try assumption.
      - intros i Hi. apply il_range. lia.
      - intros i j Hi Hj. apply il_inj; assumption.
      - unfold type3_of. rewrite psel_length. reflexivity.
      - intros i Hi. unfold y. rewrite nth_firstn' by assumption. rewrite H3 by assumption. unfold xz. rewrite app_nth1 by (rewrite LX; apply il_range; lia). reflexivity. }
    unfold r. rewrite (viterbi_23 q msg y ltac:(lia) LM (type2_term bits) LY HD). cbn [bind]. rewrite slice_ok by (rewrite map_length; lia). cbn [bind skipn]. rewrite firstn_all2 by (rewrite map_length; lia).
    rewrite blit_ok by (rewrite map_length, repeat_length; lia). change (firstn 0 (repeat 0%N MAX_TYPE2_BITS)) with (@nil N). cbn [app]. eexists. reflexivity.
  Qed.
End Chain.

(** ** Logical channels *)
Definition qa_of (c : lchan) : option (nat * nat) :=
  match c with Bsch => Some (40, 11) | SchHd | Stch | Bnch => Some (72, 101) | SchF => Some (144, 103) | SchHu => Some (56, 13) | _ => None end.
Lemma qa_facts c q a : qa_of c = Some (q, a) ->
  (is_control_channel c && negb (is_aach c))%bool = true /\ get_params c = Ok (mk_ecp (3 * q) (2 * q) (2 * q - 20) a true) /\ 10 < q <= 144 /\ Nat.gcd a (3 * q) = 1 /\ (N.of_nat a * N.of_nat (3 * q) < 2 ^ 32)%N.
Proof. destruct c; cbn [qa_of]; intros E; try discriminate; injection E as <- <-; (split; [reflexivity|split; [reflexivity|split; [lia|split; [vm_compute; reflexivity|vm_compute; reflexivity]]]]). Qed.

Lemma seek_start b : wf b -> seek 0 b = Ok (set_pos b (bstart b)) /\ wf (set_pos b (bstart b)) /\ remaining (set_pos b (bstart b)) = window b.
Proof.
  intros (W1 & W2 & W3 & W4). unfold seek. rewrite Nat.add_0_r. destruct (Nat.leb_spec (bstart b) (bend b)); [|lia]. cbn [assert bind]. split; [reflexivity|]. split; [|reflexivity].
  unfold wf, cap, set_pos in *. cbn [bytes bstart bpos bend]. split; [lia|split; [lia|split; assumption]].
Qed.

Lemma encode_cp_spec c q a blk code : qa_of c = Some (q, a) -> wf blk -> length (window blk) = 2 * q - 20 -> (code < 2 ^ 32)%N ->
  exists t4 b0 b, encode_cp c blk code = Ok b /\ wf b0 /\ remaining b0 = t4 /\ bpos b0 = bstart b0 /\ scramb_bits code b0 = Ok b /\ length t4 = 3 * q /\
    (forall i, i < 3 * q -> nth (il (3 * q) a i) t4 false = nth i (type3_of q (type2_msg (window blk))) false).
Proof.
  intros QA W L C. destruct (qa_facts c q a QA) as (F1 & F2 & F3 & F4 & F5). destruct (encode_core q a F3 F4 F5 (window blk) L) as (t4 & E4 & L4 & H4).
  destruct (from_bitarr_spec t4) as (b0 & E0 & W0 & P0 & A0 & R0). destruct (scramb_ok code b0 C W0) as (b & EB & _). exists t4, b0, b.
  split; [|split; [assumption|split; [rewrite remaining_at_start by assumption; assumption|auto]]].
  unfold encode_cp. rewrite F1, F2. cbn [assert bind type345_bits type2_bits type1_bits interleave_a have_crc16]. pose proof W as (W1 & W2 & W3 & W4).
  unfold get_len, sub_checked. destruct (Nat.leb_spec (bstart blk) (bend blk)) as [_|]; [|lia]. cbn [bind]. unfold window in L. rewrite bits_rng_length in L. rewrite L, Nat.eqb_refl. cbn [assert bind].
  destruct (seek_start blk W) as (S1 & S2 & S3). rewrite S1. cbn [bind]. rewrite to_bitarr_spec by (assumption || (rewrite S3; unfold window; rewrite bits_rng_length; lia)). cbn [bind]. rewrite S3. rewrite firstn_all2 by (unfold window; rewrite bits_rng_length; lia).
  revert E4. clear - EB E0. cbn [assert bind]. intros E4.
  destruct (blit (repeat 0%N MAX_TYPE2_BITS) 0 (map N.b2n (window blk))) as [x1| |]; cbn [bind] in *; try discriminate.
  destruct (slice x1 0 (2 * q - 20)) as [x2| |]; cbn [bind] in *; try discriminate. cbv zeta in *.
  destruct (blit x1 (2 * q - 20) _) as [x3| |]; cbn [bind] in *; try discriminate.
  destruct (slice x3 0 (2 * q)) as [x4| |]; cbn [bind] in *; try discriminate.
  destruct (cch_encode cstate_new x4 _) as [[x5 ?]| |]; cbn [bind] in *; try discriminate.
  destruct (get_punctured_rate Rate2_3 x5 _) as [x6| |]; cbn [bind] in *; try discriminate.
  destruct (block_interleave (3 * q) a x6 _) as [x7| |]; cbn [bind] in *; try discriminate.
  rewrite E4. cbn [bind]. rewrite E0. cbn [bind]. exact EB.
Qed.

Lemma encode_cp_ok c q a blk code : qa_of c = Some (q, a) -> wf blk -> length (window blk) = 2 * q - 20 -> (code < 2 ^ 32)%N ->
  exists b, encode_cp c blk code = Ok b /\ wf b /\ bpos b = bstart b /\ length (remaining b) = 3 * q.
Proof.
  intros QA W L C. destruct (encode_cp_spec c q a blk code QA W L C) as (t4 & b0 & b & E & W0 & R0 & P0 & EB & L4 & _). exists b. split; [assumption|].
  destruct (scramb_ok code b0 C W0) as (b' & EB' & W' & Q1 & Q2 & Q3). assert (b' = b) by congruence. subst b'. split; [assumption|]. split; [congruence|]. rewrite remaining_length, Q2, Q3. rewrite <- L4, <- R0. now rewrite remaining_length.
Qed.

Lemma cch_chain c q a blk code b rb e sb1 dc : qa_of c = Some (q, a) -> wf blk -> length (window blk) = 2 * q - 20 -> (code < 2 ^ 32)%N -> encode_cp c blk code = Ok b ->
  length e = 3 * q -> weight e <= 1 -> wf rb -> remaining rb = xorl (remaining b) e -> (if sb1 : bool then Some SCRAMB_INIT else dc) = Some code ->
  exists o, decode_cp c rb sb1 dc = Ok (Some o, true) /\ wf o /\ bpos o = bstart o /\ window o = window blk.
Proof.
  intros QA W L C E LE WE WR R DC. destruct (qa_facts c q a QA) as (F1 & F2 & F3 & F4 & F5).
  destruct (encode_cp_spec c q a blk code QA W L C) as (t4 & b0 & b' & E' & W0 & R0 & P0 & EB & L4 & H4). assert (b' = b) by congruence. subst b'. clear E'.
  destruct (scr_rx code b0 b rb e C W0 EB WR R) as (WB & LB & rb2 & E2 & W2 & _ & _ & _ & _ & _ & R2); [rewrite R0; congruence|]. rewrite R0 in R2.
  set (bits := window blk) in *. destruct (decode_core q a F3 F4 F5 bits t4 e L L4 H4 LE WE) as (rest & ED).
  destruct (from_bitarr_spec bits) as (o & EO & WO & PO & AO & RO). exists o. split; [|auto].
  unfold decode_cp. rewrite F1, F2, DC. cbn [assert bind type345_bits type2_bits type1_bits interleave_a have_crc16]. rewrite E2. cbn [bind].
  assert (LX : length (xorl t4 e) = 3 * q) by (rewrite xorl_length; congruence).
  rewrite to_bitarr_spec by (assumption || (rewrite R2; lia)). cbn [bind]. rewrite R2, firstn_all2 by lia.
  destruct (blit (repeat 0%N MAX_TYPE345_BITS) 0 _) as [x1| |]; cbn [bind] in *; try discriminate.
  destruct (block_deinterleave (3 * q) a x1 _) as [x2| |]; cbn [bind] in *; try discriminate.
  destruct (rcpc_depunct Rate2_3 x2 _ _) as [x3| |]; cbn [bind] in *; try discriminate. rewrite ED. cbn [bind].
  assert (T2 : type2_msg bits = (bits ++ bits_of 16 (not16 (crc_run 0xffff bits))) ++ repeat false 4) by (unfold type2_msg; now rewrite app_assoc).
  rewrite slice_ok by (rewrite app_length, map_length, type2_len; lia). cbn [bind skipn].
  replace (firstn (2 * q - 20) (map N.b2n (type2_msg bits) ++ rest)) with (map N.b2n bits).
  2:{ rewrite T2, !map_app, <- !app_assoc, firstn_app, map_length, L, Nat.sub_diag. cbn [firstn]. rewrite app_nil_r, firstn_all2 by (rewrite map_length; lia). reflexivity. }
  rewrite EO. cbn [bind]. do 2 f_equal. unfold crc16_ccitt_bits, crc16_itut_bits.
  replace (firstn (2 * q - 20 + 16) (map N.b2n (type2_msg bits) ++ rest)) with (map N.b2n (bits ++ bits_of 16 (not16 (crc_run 0xffff bits)))).
  2:{ rewrite T2, (map_app _ (bits ++ _)), <- app_assoc, firstn_app, map_length, app_length, bits_of_length, L, Nat.sub_diag. cbn [firstn]. rewrite app_nil_r, firstn_all2 by (rewrite map_length, app_length, bits_of_length; lia). reflexivity. }
  rewrite crc_run_eq. exact (protect_accepts bits).
Qed.

(** Any received block of the right length is decoded without a panic. *)
Lemma cch_total c q a rb sb1 code dc : qa_of c = Some (q, a) -> wf rb -> 3 * q <= length (remaining rb) -> (if sb1 : bool then Some SCRAMB_INIT else dc) = Some code -> (code < 2 ^ 32)%N ->
  exists o crc, decode_cp c rb sb1 dc = Ok (Some o, crc) /\ wf o /\ bpos o = bstart o /\ length (window o) = 2 * q - 20.
Proof.
  intros QA W L DC C. destruct (qa_facts c q a QA) as (F1 & F2 & F3 & F4 & F5). destruct (scramb_ok code rb C W) as (b & EB & WB & Q1 & Q2 & Q3). assert (LB : length (remaining b) = length (remaining rb)) by (rewrite !remaining_length; congruence).
  unfold decode_cp. rewrite F1, F2, DC. cbn [assert bind type345_bits type2_bits type1_bits interleave_a have_crc16]. rewrite EB. cbn [bind]. rewrite to_bitarr_spec by (assumption || lia). cbn [bind].
  assert (M2 : MAX_TYPE2_BITS = 288) by reflexivity. assert (M3 : MAX_TYPE345_BITS = 432) by reflexivity. set (w := firstn (3 * q) (remaining b)). assert (LW : length w = 3 * q) by (unfold w; rewrite firstn_length; lia).
  rewrite blit_ok by (rewrite map_length, repeat_length; lia). cbn [bind]. change (firstn 0 (repeat 0%N MAX_TYPE345_BITS)) with (@nil N). cbn [app]. rewrite repeat_b2n, skipn_map, <- map_app. set (xz := w ++ _).
  assert (LZ : length xz = 432) by (unfold xz; rewrite app_length, skipn_length, repeat_length, map_length; lia).
  rewrite block_deinterleave_map. destruct (deinterleave_spec (3 * q) a ltac:(lia) F4 F5 xz (repeat false MAX_TYPE345_BITS)) as (t3 & E3 & L3 & H3 & _); [lia|rewrite repeat_length; lia|]. rewrite E3. cbn [bind]. rewrite repeat_length in L3.
  rewrite map_some_enc. replace (MAX_TYPE345_BITS * 4) with (8 * q + (1728 - 8 * q)) by lia. rewrite depunct23 by (rewrite !map_length; lia). cbn [bind].
  change 255%N with (enc_sym None) at 1. rewrite dep_map. set (r := dep 3 8 PS23 None q (map Some t3)). assert (LR : length r = 8 * q) by apply dep_length.
  unfold dec_sb1. destruct (Nat.leb_spec (2 * q) 864); [|lia]. rewrite app_length, map_length, !repeat_length, LR. destruct (Nat.leb_spec (2 * q * 4) (8 * q + (1728 - 8 * q))); [|lia]. destruct (Nat.leb_spec (2 * q) MAX_TYPE2_BITS); [|lia]. cbn [assert bind].
  rewrite firstn_app, map_length, LR. replace (2 * q * 4 - 8 * q) with 0 by lia. cbn [firstn]. rewrite app_nil_r, firstn_all2 by (rewrite map_length; lia). rewrite to_soft_map. cbn [bind].
  destruct (viterbi_optimal CCH_GENERATORS r (2 * q)) as (m & E & LM & _).
  { discriminate. } { repeat constructor. } { rewrite cch_len. lia. } { rewrite cch_len. lia. }
  change cch_polys with CCH_GENERATORS. rewrite E. cbn [bind]. rewrite slice_ok by (rewrite map_length; lia). cbn [bind skipn]. rewrite firstn_all2 by (rewrite map_length; lia).
  rewrite blit_ok by (rewrite map_length, repeat_length; lia). change (firstn 0 (repeat 0%N MAX_TYPE2_BITS)) with (@nil N). cbn [app bind]. rewrite slice_ok by (rewrite app_length, map_length; lia). cbn [bind skipn].
  rewrite firstn_app, map_length, LM. replace (2 * q - 20 - 2 * q) with 0 by lia. cbn [firstn]. rewrite app_nil_r, firstn_map.
  destruct (from_bitarr_spec (firstn (2 * q - 20) m)) as (o & EO & WO & PO & AO & RO). rewrite EO. cbn [bind]. eexists o, _. split; [reflexivity|]. split; [assumption|]. split; [assumption|]. rewrite RO, firstn_length. lia.
Qed.
