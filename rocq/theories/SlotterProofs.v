(** Proofs about Slotter.v. *)
From Coq Require Import ZArith.
From Verif Require Import Base BitsLib BitBuffer BitBufferProofs BitBufferOps TdmaTime Slotter SlotterSpec.
Open Scope nat_scope.

Lemma b2b_length l : length (b2b l) = length l.
Proof. apply map_length. Qed.
Lemma b2b_app a b : b2b (a ++ b) = b2b a ++ b2b b.
Proof. apply map_app. Qed.
Lemma put_spec a b src pre mid post : length pre = a -> a <= b -> length mid = b - a -> length src = b - a ->
  put a b src (pre ++ mid ++ post) = Ok (pre ++ src ++ post).
Proof.
  intros <- AB M S. unfold put. rewrite !app_length.
  destruct (Nat.leb_spec (length pre) b); [|lia]. destruct (Nat.leb_spec b (length pre + (length mid + length post))); [|lia].
  rewrite S, Nat.eqb_refl. cbn [andb assert bind]. f_equal. rewrite firstn_app, Nat.sub_diag, firstn_all, firstn_O, app_nil_r. do 2 f_equal.
  replace b with (length pre + length mid) by lia. rewrite app_assoc, <- app_length, skipn_app, skipn_all, Nat.sub_diag. reflexivity.
Qed.

(** ** Phases *)
Lemma nth_b2b l i : nth_error (b2b l) i = option_map N.b2n (nth_error l i).
Proof. unfold b2b. revert i. induction l as [|x l IH]; intros [|i]; cbn; auto. Qed.
Lemma sum_phase_spec l : forall n idx sum, idx + 2 * n <= length l ->
  sum_up_phase (b2b l) idx n sum = Ok (sum + phases (firstn (2 * n) (skipn idx l)))%Z.
Proof.
  induction n as [|n IH]; intros idx sum L.
  - cbn. f_equal. lia.
  - cbn [sum_up_phase]. rewrite !nth_b2b.
    destruct (nth_error l idx) as [x|] eqn:X; [|apply nth_error_None in X; lia]. destruct (nth_error l (idx + 1)) as [y|] eqn:Y; [|apply nth_error_None in Y; lia].
    cbn [option_map unwrap bind].
    assert (E : skipn idx l = x :: y :: skipn (idx + 2) l).
    { clear -X Y. revert idx X Y. induction l as [|z l IH]; intros [|idx] X Y; cbn in X; try discriminate.
      - injection X as <-. destruct l as [|w l]; [discriminate|]. cbn in Y. injection Y as <-. reflexivity.
      - cbn in Y. cbn [skipn Nat.add]. apply IH; assumption. }
    rewrite E. replace (2 * S n) with (S (S (2 * n))) by lia. cbn [firstn phases].
    assert (Ph : nth_error BITS2PHASE (N.to_nat (N.lor (N.b2n x) (N.land (N.shiftl (N.b2n y) 1) 255))) = Some (phase x y)) by (destruct x, y; reflexivity).
    rewrite Ph. cbn [unwrap bind]. rewrite IH by lia. f_equal. lia.
Qed.
Lemma phases_parity : forall n l, length l = 2 * n -> (phases l mod 2 = Z.of_nat n mod 2)%Z.
Proof.
  induction n as [|n IH]; intros l L.
  - destruct l; [reflexivity|discriminate].
  - destruct l as [|a [|b l]]; cbn [length] in L; try lia. cbn [phases]. specialize (IH l ltac:(lia)).
    rewrite Z.add_mod, IH by lia. rewrite Nat2Z.inj_succ. unfold Z.succ. rewrite (Z.add_mod (Z.of_nat n) 1) by lia.
    destruct a, b; cbn [phase]; change (-3 mod 2)%Z with 1%Z; change (3 mod 2)%Z with 1%Z; change (-1 mod 2)%Z with 1%Z; change (1 mod 2)%Z with 1%Z; rewrite Z.add_comm; reflexivity.
Qed.
Lemma calc_adj s : (s mod 2 = 1)%Z -> In (calc_phase_adj s) [-3; -1; 1; 3]%Z /\ ((s + calc_phase_adj s) mod 8 = 0)%Z.
Proof.
  intros O. pose proof (Z.quot_rem s 8 ltac:(lia)) as Q. pose proof (Z.rem_bound_abs s 8 ltac:(lia)) as B.
  set (r := Z.rem s 8) in *. set (q := Z.quot s 8) in *.
  assert (Or : (r mod 2 = 1)%Z) by (rewrite <- O, Q; replace (8 * q + r)%Z with (r + (4 * q) * 2)%Z by lia; now rewrite Z.mod_add by lia).
  assert (R : In r [-7; -5; -3; -1; 1; 3; 5; 7]%Z).
  { cbn [In]. pose proof (Z.div_mod r 2 ltac:(lia)). rewrite Or in *. lia. }
  unfold calc_phase_adj. fold r. rewrite Q. clearbody r q.
  assert (G : forall a, ((8 * q + r + a) mod 8 = (r + a) mod 8)%Z) by (intros a; replace (8 * q + r + a)%Z with (r + a + q * 8)%Z by lia; now rewrite Z.mod_add by lia).
  rewrite G. cbn [In] in R. repeat (destruct R as [<-|R]; [split; [cbn; tauto|reflexivity]|]). destruct R.
Qed.
Lemma adj_bits l pan n1 n2 : phase_adj_span pan = (n1, n2) -> 1 <= n1 <= n2 -> 2 * n2 <= length l -> Nat.odd (n2 - n1 + 1) = true ->
  exists h, compute_phase_adj_bits (b2b l) pan = Ok (b2b h) /\ length h = 2 /\
    ((phases h + phases (symbols n1 n2 l)) mod 8 = if (phases (symbols n1 n2 l) mod 4 =? 3) then 0 else 4)%Z.
Proof.
  intros Sp B L Od. unfold compute_phase_adj_bits. rewrite Sp. rewrite sum_phase_spec by lia. cbn [bind]. rewrite Z.add_0_l.
  unfold symbols. rewrite (Nat.mul_comm (n1 - 1) 2). set (w := firstn _ _).
  assert (P : (phases w mod 2 = 1)%Z).
  { rewrite (phases_parity (n2 - n1 + 1)); [|unfold w; rewrite firstn_length, skipn_length; lia].
    rewrite <- Nat.negb_even in Od. apply Bool.negb_true_iff in Od. rewrite <- Nat.negb_odd in Od. apply Bool.negb_false_iff in Od. apply Nat.odd_spec in Od. destruct Od as (m & ->).
    rewrite Nat2Z.inj_add, Nat2Z.inj_mul. rewrite Z.add_comm, Z.mul_comm, Z.mod_add by lia. reflexivity. }
  destruct (calc_adj (phases w) P) as (I & M). set (a := calc_phase_adj (phases w)) in *. clearbody a. set (s := phases w) in *. clearbody s. clear w P.
  assert (A4 : (s mod 4 = (- a) mod 4)%Z).
  { pose proof (Z.div_mod (s + a) 8 ltac:(lia)) as D. rewrite M in D. replace s with (- a + (2 * ((s + a) / 8)) * 4)%Z by lia. now rewrite Z.mod_add by lia. }
  assert (A8 : forall x, ((x + s) mod 8 = (x - a) mod 8)%Z).
  { intros x. pose proof (Z.div_mod (s + a) 8 ltac:(lia)) as D. rewrite M in D. replace (x + s)%Z with (x - a + ((s + a) / 8) * 8)%Z by lia. now rewrite Z.mod_add by lia. }
  cbn [In] in I. destruct I as [<-|[<-|[<-|[<-|[]]]]]; [exists [true; true]|exists [false; true]|exists [false; false]|exists [true; false]];
    (split; [reflexivity|]; split; [reflexivity|]; cbn [phases phase]; rewrite A4, A8; reflexivity).
Qed.
Lemma symbols_mid (A h1 M h2 Q : list bool) n1 n2 : length A = 12 -> length h1 = 2 -> 8 <= n1 <= n2 -> 2 * n2 <= 14 + length M ->
  symbols n1 n2 (A ++ h1 ++ M ++ h2 ++ Q) = firstn (2 * (n2 - n1 + 1)) (skipn (2 * (n1 - 1) - 14) M).
Proof.
  intros LA LH B L. unfold symbols. rewrite skipn_app, LA, (skipn_all2 A) by lia. rewrite skipn_app, LH, (skipn_all2 h1) by lia. cbn [app].
  rewrite skipn_app. replace (2 * (n1 - 1) - 12 - 2) with (2 * (n1 - 1) - 14) by lia. rewrite firstn_app, skipn_length.
  replace (2 * (n2 - n1 + 1) - (length M - (2 * (n1 - 1) - 14))) with 0 by lia. rewrite firstn_O. apply app_nil_r.
Qed.

(** ** Bursts *)
Definition finish (t : list N) (p1 p2 : phase_adj) : res (list N) :=
  fc1 <- compute_phase_adj_bits t p1 ;; fc2 <- compute_phase_adj_bits t p2 ;; t <- put 12 14 fc1 t ;; put 498 500 fc2 t.
Lemma finish_spec A M Q p1 p2 a1 b1 a2 b2 : length A = 12 -> length M = 484 -> length Q = 10 ->
  phase_adj_span p1 = (a1, b1) -> phase_adj_span p2 = (a2, b2) -> 8 <= a1 <= b1 -> 8 <= a2 <= b2 -> b1 <= 249 -> b2 <= 249 -> Nat.odd (b1 - a1 + 1) = true -> Nat.odd (b2 - a2 + 1) = true ->
  exists h1 h2, length h1 = 2 /\ length h2 = 2 /\ finish (b2b (A ++ [false; false] ++ M ++ [false; false] ++ Q)) p1 p2 = Ok (b2b (A ++ h1 ++ M ++ h2 ++ Q)) /\
    let burst := A ++ h1 ++ M ++ h2 ++ Q in
    ((phases h1 + phases (symbols a1 b1 burst)) mod 8 = if (phases (symbols a1 b1 burst) mod 4 =? 3) then 0 else 4)%Z /\
    ((phases h2 + phases (symbols a2 b2 burst)) mod 8 = if (phases (symbols a2 b2 burst) mod 4 =? 3) then 0 else 4)%Z.
Proof.
  intros LA LM LQ S1 S2 B1 B2 C1 C2 O1 O2. set (t0 := A ++ [false; false] ++ M ++ [false; false] ++ Q).
  assert (L0 : length t0 = 510) by (unfold t0; rewrite !app_length, LA, LM, LQ; reflexivity).
  destruct (adj_bits t0 p1 a1 b1 S1) as (h1 & E1 & H1 & P1); [lia|lia|assumption|].
  destruct (adj_bits t0 p2 a2 b2 S2) as (h2 & E2 & H2 & P2); [lia|lia|assumption|].
  exists h1, h2. split; [assumption|]. split; [assumption|]. unfold finish. rewrite E1. cbn [bind]. rewrite E2. cbn [bind]. split.
  - unfold t0. rewrite !b2b_app. rewrite (put_spec 12 14); [|rewrite b2b_length; assumption|lia|reflexivity|rewrite b2b_length; assumption]. cbn [bind].
    replace (b2b A ++ b2b h1 ++ b2b M ++ b2b [false; false] ++ b2b Q) with ((b2b A ++ b2b h1 ++ b2b M) ++ b2b [false; false] ++ b2b Q) by (now rewrite <- !app_assoc).
    rewrite (put_spec 498 500); [now rewrite <- !app_assoc| |lia|reflexivity|rewrite b2b_length; assumption]. rewrite !app_length, !b2b_length, LA, H1, LM. reflexivity.
  - cbv zeta. unfold t0 in P1, P2. rewrite symbols_mid in P1, P2 by (reflexivity || assumption || lia). rewrite !symbols_mid by (assumption || lia). split; assumption.
Qed.
Definition zz (n : nat) : list N := repeat 0%N n.
Lemma zz_length n : length (zz n) = n.
Proof. apply repeat_length. Qed.
Lemma skipn_cons_nth {X} i (l : list (list X)) : i < length l -> skipn i l = nth i l [] :: skipn (S i) l.
Proof. revert i. induction l as [|x l IH]; intros [|i] I; cbn in *; try lia; [reflexivity|]. apply IH. lia. Qed.
Lemma put_nth i segs a b src : length (concat (firstn i segs)) = a -> i < length segs -> a <= b -> length (nth i segs []) = b - a -> length src = b - a ->
  put a b src (concat segs) = Ok (concat (firstn i segs ++ src :: skipn (S i) segs)).
Proof.
  intros LA I AB LM LS. rewrite <- (firstn_skipn i segs) at 1. rewrite (skipn_cons_nth i segs I). rewrite !concat_app. cbn [concat]. apply put_spec; assumption.
Qed.
Ltac lens := cbn [firstn skipn app concat nth length]; rewrite ?app_length, ?b2b_length, ?zz_length, ?firstn_length, ?skipn_length, ?b2b_length; cbn [length]; try reflexivity; try lia.
Ltac putn i := match goal with |- context [put ?a ?b ?src (concat ?segs)] => rewrite (put_nth i segs a b src); [cbn [bind firstn skipn app]|lens|cbn [length]; lia|lia|lens|lens] end.
Lemma seq_q_b2b : seq_q = b2b normal3. Proof. reflexivity. Qed.
Lemma seq_f_b2b : seq_f = b2b frequency_correction. Proof. reflexivity. Qed.
Lemma seq_y_b2b : seq_y = b2b sync. Proof. reflexivity. Qed.
Lemma b2b_firstn n l : firstn n (b2b l) = b2b (firstn n l).
Proof. apply firstn_map. Qed.
Lemma b2b_skipn n l : skipn n (b2b l) = b2b (skipn n l).
Proof. apply skipn_map. Qed.
Lemma sdb_spec blk1 bbk blk2 : length blk1 = 120 -> length bbk = 30 -> length blk2 = 216 ->
  exists h1 h2, length h1 = 2 /\ length h2 = 2 /\ build_sdb (b2b blk1) (b2b bbk) (b2b blk2) = Ok (b2b (sdb blk1 bbk blk2 h1 h2)) /\
    let burst := sdb blk1 bbk blk2 h1 h2 in
    ((phases h1 + phases (symbols 8 108 burst)) mod 8 = if (phases (symbols 8 108 burst) mod 4 =? 3) then 0 else 4)%Z /\
    ((phases h2 + phases (symbols 109 249 burst)) mod 8 = if (phases (symbols 109 249 burst) mod 4 =? 3) then 0 else 4)%Z.
Proof.
  intros L1 L2 L3. set (A := skipn 10 normal3). set (Q := firstn 10 normal3). set (M := frequency_correction ++ blk1 ++ sync ++ bbk ++ blk2).
  assert (LA : length A = 12) by reflexivity. assert (LQ : length Q = 10) by reflexivity.
  destruct (finish_spec A M Q PaHC PaHD 8 108 109 249) as (h1 & h2 & H1 & H2 & F & P1 & P2); try reflexivity; try lia.
  { unfold M. rewrite !app_length, L1, L2, L3. reflexivity. }
  exists h1, h2. split; [assumption|]. split; [assumption|].
  assert (Sh : forall x y, sdb blk1 bbk blk2 x y = A ++ x ++ M ++ y ++ Q) by (intros x y; unfold sdb, M; rewrite <- !app_assoc; reflexivity).
  rewrite !Sh. split; [|split; assumption]. rewrite <- F. unfold build_sdb. rewrite seq_q_b2b, seq_f_b2b, seq_y_b2b, b2b_firstn, b2b_skipn. fold A Q.
  change (repeat 0%N 510) with (concat [zz 12; zz 2; zz 80; zz 120; zz 38; zz 30; zz 216; zz 2; zz 10]).
  assert (LF : length frequency_correction = 80) by reflexivity. assert (LS : length sync = 38) by reflexivity. clearbody A Q. putn 0. putn 2. putn 3. putn 4. putn 5. putn 6. putn 8. unfold finish.
  match goal with |- context [compute_phase_adj_bits (concat ?l) PaHC] => assert (E : concat l = b2b (A ++ [false; false] ++ M ++ [false; false] ++ Q)) end.
  { unfold M. rewrite !b2b_app. cbn [concat]. rewrite app_nil_r, <- !app_assoc. reflexivity. }
  rewrite E. reflexivity.
Qed.
Lemma ndb_spec ts blk1 bbk blk2 : ts = TrainNormal1 \/ ts = TrainNormal2 -> length blk1 = 216 -> length bbk = 30 -> length blk2 = 216 ->
  exists h1 h2, length h1 = 2 /\ length h2 = 2 /\ build_ndb ts (b2b blk1) (b2b bbk) (b2b blk2) = Ok (b2b (ndb (train_bits ts) blk1 bbk blk2 h1 h2)) /\
    let burst := ndb (train_bits ts) blk1 bbk blk2 h1 h2 in
    ((phases h1 + phases (symbols 8 122 burst)) mod 8 = if (phases (symbols 8 122 burst) mod 4 =? 3) then 0 else 4)%Z /\
    ((phases h2 + phases (symbols 123 249 burst)) mod 8 = if (phases (symbols 123 249 burst) mod 4 =? 3) then 0 else 4)%Z.
Proof.
  intros T L1 L2 L3. set (A := skipn 10 normal3). set (Q := firstn 10 normal3). set (tr := train_bits ts). set (M := blk1 ++ firstn 14 bbk ++ tr ++ skipn 14 bbk ++ blk2).
  assert (LA : length A = 12) by reflexivity. assert (LQ : length Q = 10) by reflexivity. assert (LT : length tr = 22) by (unfold tr; destruct T as [-> | ->]; reflexivity).
  destruct (finish_spec A M Q PaHA PaHB 8 122 123 249) as (h1 & h2 & H1 & H2 & F & P1 & P2); try reflexivity; try lia.
  { unfold M. rewrite !app_length, firstn_length, skipn_length, L1, L2, L3, LT. reflexivity. }
  exists h1, h2. split; [assumption|]. split; [assumption|].
  assert (Sh : forall x y, ndb tr blk1 bbk blk2 x y = A ++ x ++ M ++ y ++ Q) by (intros x y; unfold ndb, M; rewrite <- !app_assoc; reflexivity).
  rewrite !Sh. split; [|split; assumption]. rewrite <- F. unfold build_ndb. rewrite seq_q_b2b, !b2b_firstn, !b2b_skipn. fold A Q.
  change (repeat 0%N 510) with (concat [zz 12; zz 2; zz 216; zz 14; zz 22; zz 16; zz 216; zz 2; zz 10]).
  assert (TR : forall t, match ts with TrainNormal1 => put 244 266 seq_n t | TrainNormal2 => put 244 266 seq_p t | _ => Panic end = put 244 266 (b2b tr) t) by (intros t; unfold tr; destruct T as [-> | ->]; reflexivity).
  assert (F14 : length (firstn 14 bbk) = 14) by (rewrite firstn_length; lia). assert (S14 : length (skipn 14 bbk) = 16) by (rewrite skipn_length; lia).
  unfold M in *. clear M Sh F P1 P2 H1 H2 h1 h2. set (x1 := firstn 14 bbk) in *. set (x2 := skipn 14 bbk) in *. clearbody x1 x2. clearbody A Q tr. putn 0. putn 2. putn 3. rewrite TR. putn 4. putn 5. putn 6. putn 8. unfold finish.
  match goal with |- context [compute_phase_adj_bits (concat ?l) PaHA] => assert (E : concat l = b2b (A ++ [false; false] ++ (blk1 ++ x1 ++ tr ++ x2 ++ blk2) ++ [false; false] ++ Q)) end.
  { rewrite !b2b_app. cbn [concat]. rewrite app_nil_r, <- !app_assoc. reflexivity. }
  rewrite E. reflexivity.
Qed.

(** ** Whole messages *)
Lemma slice_at (pre l post : list bool) n : length l = n -> firstn n (skipn (length pre) (pre ++ l ++ post)) = l.
Proof. intros <-. rewrite skipn_app, skipn_all, Nat.sub_diag. cbn [app]. now rewrite skipn_O, firstn_app, Nat.sub_diag, firstn_all, firstn_O, app_nil_r. Qed.
Lemma at_slice i segs (w l : list bool) a n : concat segs = w -> length (concat (firstn i segs)) = a -> nth i segs [] = l -> i < length segs -> length l = n -> firstn n (skipn a w) = l.
Proof.
  intros <- <- N I L. rewrite <- (firstn_skipn i segs) at 2. rewrite concat_app, (skipn_cons_nth i segs I), N. cbn [concat]. now apply slice_at.
Qed.
Lemma ndb_slices tr blk1 bbk blk2 h1 h2 : length tr = 22 -> length blk1 = 216 -> length bbk = 30 -> length blk2 = 216 -> length h1 = 2 -> length h2 = 2 ->
  let w := ndb tr blk1 bbk blk2 h1 h2 in
  length w = 510 /\ firstn 216 (skipn NDB_BLK1_OFFSET w) = blk1 /\ firstn 14 (skipn NDB_BBK1_OFFSET w) ++ firstn 16 (skipn NDB_BBK2_OFFSET w) = bbk /\
  firstn 216 (skipn NDB_BLK2_OFFSET w) = blk2 /\ firstn 22 (skipn 244 w) = tr.
Proof.
  intros LT L1 LB L2 LH1 LH2 w.
  set (segs := [skipn 10 normal3; h1; blk1; firstn 14 bbk; tr; skipn 14 bbk; blk2; h2; firstn 10 normal3]).
  assert (E : concat segs = w) by (unfold segs, w, ndb; cbn [concat]; now rewrite app_nil_r).
  assert (LA : length (skipn 10 normal3) = 12) by reflexivity.
  assert (F14 : length (firstn 14 bbk) = 14) by (rewrite firstn_length; lia). assert (S14 : length (skipn 14 bbk) = 16) by (rewrite skipn_length; lia).
  assert (LQ : length (firstn 10 normal3) = 10) by reflexivity.
  split. { unfold w, ndb. rewrite !app_length, LA, LH1, L1, F14, LT, S14, L2, LH2, LQ. reflexivity. }
  assert (G : forall i a n l, nth i segs [] = l -> length (concat (firstn i segs)) = a -> i < length segs -> length l = n -> firstn n (skipn a w) = l) by (intros i a n l N A I L; exact (at_slice i segs w l a n E A N I L)).
  rewrite (G 2 NDB_BLK1_OFFSET 216 blk1); [|reflexivity|unfold segs; cbn [firstn concat]; rewrite !app_length, LA, LH1; reflexivity|cbn; lia|assumption].
  rewrite (G 3 NDB_BBK1_OFFSET 14 (firstn 14 bbk)); [|reflexivity|unfold segs; cbn [firstn concat]; rewrite !app_length, LA, LH1, L1; reflexivity|cbn; lia|assumption].
  rewrite (G 5 NDB_BBK2_OFFSET 16 (skipn 14 bbk)); [|reflexivity| |cbn; lia|assumption].
  2: { unfold segs. change (firstn 5 _) with [skipn 10 normal3; h1; blk1; firstn 14 bbk; tr]. cbn [concat]. rewrite !app_length, LA, LH1, L1, F14, LT. reflexivity. }
  rewrite (G 6 NDB_BLK2_OFFSET 216 blk2); [|reflexivity| |cbn; lia|assumption].
  2: { unfold segs. change (firstn 6 _) with [skipn 10 normal3; h1; blk1; firstn 14 bbk; tr; skipn 14 bbk]. cbn [concat]. rewrite !app_length, LA, LH1, L1, F14, LT, S14. reflexivity. }
  rewrite (G 4 244 22 tr); [|reflexivity| |cbn; lia|assumption].
  2: { unfold segs. change (firstn 4 _) with [skipn 10 normal3; h1; blk1; firstn 14 bbk]. cbn [concat]. rewrite !app_length, LA, LH1, L1, F14. reflexivity. }
  rewrite firstn_skipn. auto.
Qed.
Lemma sdb_slices blk1 bbk blk2 h1 h2 : length blk1 = 120 -> length bbk = 30 -> length blk2 = 216 -> length h1 = 2 -> length h2 = 2 ->
  let w := sdb blk1 bbk blk2 h1 h2 in
  length w = 510 /\ firstn 120 (skipn SB_BLK1_OFFSET w) = blk1 /\ firstn 30 (skipn SB_BBK_OFFSET w) = bbk /\ firstn 216 (skipn SB_BLK2_OFFSET w) = blk2 /\
  firstn 80 (skipn 14 w) = frequency_correction /\ firstn 38 (skipn 214 w) = sync.
Proof.
  intros L1 LB L2 LH1 LH2 w.
  set (segs := [skipn 10 normal3; h1; frequency_correction; blk1; sync; bbk; blk2; h2; firstn 10 normal3]).
  assert (E : concat segs = w) by (unfold segs, w, sdb; cbn [concat]; now rewrite app_nil_r).
  assert (LA : length (skipn 10 normal3) = 12) by reflexivity. assert (LF : length frequency_correction = 80) by reflexivity. assert (LS : length sync = 38) by reflexivity.
  assert (LQ : length (firstn 10 normal3) = 10) by reflexivity.
  split. { unfold w, sdb. rewrite !app_length, LA, LH1, LF, L1, LS, LB, L2, LH2, LQ. reflexivity. }
  assert (G : forall i a n l, nth i segs [] = l -> length (concat (firstn i segs)) = a -> i < length segs -> length l = n -> firstn n (skipn a w) = l) by (intros i a n l N A I L; exact (at_slice i segs w l a n E A N I L)).
  rewrite (G 3 SB_BLK1_OFFSET 120 blk1); [|reflexivity| |cbn; lia|assumption].
  2: { unfold segs. change (firstn 3 _) with [skipn 10 normal3; h1; frequency_correction]. cbn [concat]. rewrite !app_length, LA, LH1, LF. reflexivity. }
  rewrite (G 5 SB_BBK_OFFSET 30 bbk); [|reflexivity| |cbn; lia|assumption].
  2: { unfold segs. change (firstn 5 _) with [skipn 10 normal3; h1; frequency_correction; blk1; sync]. cbn [concat]. rewrite !app_length, LA, LH1, LF, L1, LS. reflexivity. }
  rewrite (G 6 SB_BLK2_OFFSET 216 blk2); [|reflexivity| |cbn; lia|assumption].
  2: { unfold segs. change (firstn 6 _) with [skipn 10 normal3; h1; frequency_correction; blk1; sync; bbk]. cbn [concat]. rewrite !app_length, LA, LH1, LF, L1, LS, LB. reflexivity. }
  rewrite (G 2 14 80 frequency_correction); [|reflexivity| |cbn; lia|assumption].
  2: { unfold segs. change (firstn 2 _) with [skipn 10 normal3; h1]. cbn [concat]. rewrite !app_length, LA, LH1. reflexivity. }
  rewrite (G 4 214 38 sync); [|reflexivity| |cbn; lia|assumption].
  2: { unfold segs. change (firstn 4 _) with [skipn 10 normal3; h1; frequency_correction; blk1]. cbn [concat]. rewrite !app_length, LA, LH1, LF, L1. reflexivity. }
  auto 10.
Qed.
Lemma to_bitarr_n n b : wf b -> n <= length (remaining b) -> to_bitarr n b = Ok (b2b (firstn n (remaining b)), adv b n).
Proof. exact (to_bitarr_spec n b). Qed.
Lemma sdb_request b1 bb b2 : wf b1 -> wf bb -> wf b2 -> 120 <= length (remaining b1) -> 30 <= length (remaining bb) -> 216 <= length (remaining b2) ->
  phy_build (mk_tpreq BurstSDB TrainSync (Some bb) (Some b1) (Some b2)) =
  build_sdb (b2b (firstn 120 (remaining b1))) (b2b (firstn 30 (remaining bb))) (b2b (firstn 216 (remaining b2))).
Proof.
  intros W1 WB W2 L1 LB L2. unfold phy_build. cbn [tp_bbk tp_blk1 tp_blk2 tp_burst tp_train unwrap bind].
  rewrite (to_bitarr_n 30 bb WB LB). cbn [bind assert]. rewrite (to_bitarr_n 120 b1 W1 L1). cbn [bind]. now rewrite (to_bitarr_n 216 b2 W2 L2).
Qed.
Lemma ndb2_request b1 bb b2 : wf b1 -> wf bb -> wf b2 -> 216 <= length (remaining b1) -> 30 <= length (remaining bb) -> 216 <= length (remaining b2) ->
  phy_build (mk_tpreq BurstNDB TrainNormal2 (Some bb) (Some b1) (Some b2)) =
  build_ndb TrainNormal2 (b2b (firstn 216 (remaining b1))) (b2b (firstn 30 (remaining bb))) (b2b (firstn 216 (remaining b2))).
Proof.
  intros W1 WB W2 L1 LB L2. unfold phy_build. cbn [tp_bbk tp_blk1 tp_blk2 tp_burst tp_train unwrap bind].
  rewrite (to_bitarr_n 30 bb WB LB). cbn [bind assert]. rewrite (to_bitarr_n 216 b1 W1 L1). cbn [bind]. now rewrite (to_bitarr_n 216 b2 W2 L2).
Qed.
Lemma ndb1_request b1 bb : wf b1 -> wf bb -> 432 <= length (remaining b1) -> 30 <= length (remaining bb) ->
  phy_build (mk_tpreq BurstNDB TrainNormal1 (Some bb) (Some b1) None) =
  build_ndb TrainNormal1 (b2b (firstn 216 (remaining b1))) (b2b (firstn 30 (remaining bb))) (b2b (firstn 216 (skipn 216 (remaining b1)))).
Proof.
  intros W1 WB L1 LB. unfold phy_build. cbn [tp_bbk tp_blk1 tp_blk2 tp_burst tp_train unwrap bind].
  rewrite (to_bitarr_n 30 bb WB LB). cbn [bind assert]. rewrite (to_bitarr_n 216 b1 W1) by lia. cbn [bind].
  rewrite (to_bitarr_n 216 (adv b1 216)).
  - cbn [bind]. now rewrite remaining_adv.
  - apply wf_adv; [assumption|lia].
  - rewrite remaining_adv by assumption. rewrite skipn_length. lia.
Qed.

(** ** Reception *)
Lemma two_halves l1 l2 n : n = length l1 + length l2 ->
  exists b, (b <- copy_bits_from_bitarr (b2b l1) (bb_new n) ;; b <- copy_bits_from_bitarr (b2b l2) b ;; seek 0 b) = Ok b /\ fresh_with b (l1 ++ l2).
Proof.
  intros E0. destruct (writes_seq _ _ l1 l2 (copy_from_bitarr_spec l1) (copy_from_bitarr_spec l2) (bb_new n)) as (b & E & O); [apply wf_new|right; rewrite app_length; cbn; lia|].
  pose proof O as (W1 & S1 & A1 & P1 & L1 & B1 & E1 & F1 & T1). cbn in P1, S1, A1, E1. destruct F1 as [F1 _]; [cbn; rewrite app_length; lia|]. cbn in F1.
  destruct W1 as (V1 & V2 & V3 & V4). unfold cap in *.
  exists (set_pos b (bstart b)). split.
  - unfold b2b in *. destruct (copy_bits_from_bitarr (map N.b2n l1) (bb_new n)) as [b0| |]; cbn [bind] in *; try discriminate. rewrite E. cbn [bind]. unfold seek. rewrite Nat.add_0_r.
    destruct (Nat.leb_spec (bstart b) (bend b)); [reflexivity|lia].
  - split; [unfold wf, set_pos, cap; cbn [bytes bstart bpos bend]; repeat split; try lia; assumption|]. split; [reflexivity|].
    unfold window, set_pos; cbn [bytes bstart bpos bend]. rewrite S1, F1, E0, <- app_length, Nat.sub_0_r. exact (wrote_bits _ _ _ O).
Qed.
Lemma one_half l : exists b, bb_from_bitarr (b2b l) = Ok b /\ fresh_with b l.
Proof. destruct (from_bitarr_spec l) as (b & E & W & P & _ & V). exists b. split; [exact E|]. split; auto. Qed.
Lemma slice_b2b i segs (w l : list bool) a n : concat segs = w -> length (concat (firstn i segs)) = a -> nth i segs [] = l -> i < length segs -> length l = n -> slice (b2b w) a n = b2b l.
Proof. intros E A N I L. unfold slice. rewrite b2b_skipn, b2b_firstn. f_equal. exact (at_slice i segs w l a n E A N I L). Qed.
Lemma split_nub1 t1 tr blk1 blk2 t2 time : length t1 = 4 -> length blk1 = 216 -> length tr = 22 -> length blk2 = 216 -> length t2 = 4 ->
  exists b, phy_split TrainNormal1 (b2b (nub t1 tr blk1 blk2 t2)) time = Ok [mk_tpind TrainNormal1 BurstNUB PbNUB BkBoth b (add_timeslots time (-2))] /\ fresh_with b (blk1 ++ blk2).
Proof.
  intros A B C D E. destruct (two_halves blk1 blk2 432) as (b & Eb & F); [lia|]. exists b. split; [|exact F].
  unfold phy_split, nub. rewrite b2b_length, !app_length, A, B, C, D, E. change (4 + _ =? NUB_BITS) with true. cbn [assert bind].
  set (segs := [t1; blk1; tr; blk2; t2]). set (w := t1 ++ blk1 ++ tr ++ blk2 ++ t2).
  assert (Ew : concat segs = w) by (unfold segs, w; cbn [concat]; now rewrite app_nil_r).
  rewrite (slice_b2b 1 segs w blk1 4 216 Ew), (slice_b2b 3 segs w blk2 242 216 Ew); try reflexivity; try assumption; try (cbn; lia).
  2, 3: unfold segs; cbn [firstn concat]; rewrite ?app_length, ?A, ?B, ?C; reflexivity.
  destruct (copy_bits_from_bitarr (b2b blk1) (bb_new 432)) as [c| |]; cbn [bind] in *; try discriminate.
  destruct (copy_bits_from_bitarr (b2b blk2) c) as [c2| |]; cbn [bind] in *; try discriminate. now rewrite Eb.
Qed.
Lemma split_nub2 t1 tr blk1 blk2 t2 time : length t1 = 4 -> length blk1 = 216 -> length tr = 22 -> length blk2 = 216 -> length t2 = 4 ->
  exists b1 b2, phy_split TrainNormal2 (b2b (nub t1 tr blk1 blk2 t2)) time =
    Ok [mk_tpind TrainNormal2 BurstNUB PbNUB Bk1 b1 (add_timeslots time (-2)); mk_tpind TrainNormal2 BurstNUB PbNUB Bk2 b2 (add_timeslots time (-2))] /\ fresh_with b1 blk1 /\ fresh_with b2 blk2.
Proof.
  intros A B C D E. destruct (one_half blk1) as (b1 & E1 & F1). destruct (one_half blk2) as (b2 & E2 & F2). exists b1, b2. split; [|split; assumption].
  unfold phy_split, nub. rewrite b2b_length, !app_length, A, B, C, D, E. change (4 + _ =? NUB_BITS) with true. cbn [assert bind].
  set (segs := [t1; blk1; tr; blk2; t2]). set (w := t1 ++ blk1 ++ tr ++ blk2 ++ t2).
  assert (Ew : concat segs = w) by (unfold segs, w; cbn [concat]; now rewrite app_nil_r).
  rewrite (slice_b2b 1 segs w blk1 4 216 Ew), (slice_b2b 3 segs w blk2 242 216 Ew); try reflexivity; try assumption; try (cbn; lia).
  2, 3: unfold segs; cbn [firstn concat]; rewrite ?app_length, ?A, ?B, ?C; reflexivity.
  rewrite E1. cbn [bind]. now rewrite E2.
Qed.
Lemma split_cub t1 tr blk1 blk2 t2 time : length t1 = 4 -> length blk1 = 84 -> length tr = 30 -> length blk2 = 84 -> length t2 = 4 ->
  exists b, phy_split TrainExtended (b2b (nub t1 tr blk1 blk2 t2)) time = Ok [mk_tpind TrainExtended BurstCUB PbSSN1 Bk1 b (add_timeslots time (-2))] /\ fresh_with b (blk1 ++ blk2).
Proof.
  intros A B C D E. destruct (two_halves blk1 blk2 168) as (b & Eb & F); [lia|]. exists b. split; [|exact F].
  unfold phy_split, nub. rewrite b2b_length, !app_length, A, B, C, D, E. change (4 + _ =? CUB_BITS) with true. cbn [assert bind].
  set (segs := [t1; blk1; tr; blk2; t2]). set (w := t1 ++ blk1 ++ tr ++ blk2 ++ t2).
  assert (Ew : concat segs = w) by (unfold segs, w; cbn [concat]; now rewrite app_nil_r).
  rewrite (slice_b2b 1 segs w blk1 4 84 Ew), (slice_b2b 3 segs w blk2 118 84 Ew); try reflexivity; try assumption; try (cbn; lia).
  2, 3: unfold segs; cbn [firstn concat]; rewrite ?app_length, ?A, ?B, ?C; reflexivity.
  destruct (copy_bits_from_bitarr (b2b blk1) (bb_new 168)) as [c| |]; cbn [bind] in *; try discriminate.
  destruct (copy_bits_from_bitarr (b2b blk2) c) as [c2| |]; cbn [bind] in *; try discriminate. now rewrite Eb.
Qed.

(** ** Statements for Props_Phy *)
Lemma ndb_built ts blk1 bbk blk2 : ts = TrainNormal1 \/ ts = TrainNormal2 -> length blk1 = 216 -> length bbk = 30 -> length blk2 = 216 ->
  exists h1 h2, length h1 = 2 /\ length h2 = 2 /\ build_ndb ts (b2b blk1) (b2b bbk) (b2b blk2) = Ok (b2b (ndb (train_bits ts) blk1 bbk blk2 h1 h2)).
Proof. intros T L1 L2 L3. destruct (ndb_spec ts blk1 bbk blk2 T L1 L2 L3) as (h1 & h2 & H1 & H2 & E & _). eauto. Qed.
Lemma sdb_built blk1 bbk blk2 : length blk1 = 120 -> length bbk = 30 -> length blk2 = 216 ->
  exists h1 h2, length h1 = 2 /\ length h2 = 2 /\ build_sdb (b2b blk1) (b2b bbk) (b2b blk2) = Ok (b2b (sdb blk1 bbk blk2 h1 h2)).
Proof. intros L1 L2 L3. destruct (sdb_spec blk1 bbk blk2 L1 L2 L3) as (h1 & h2 & H1 & H2 & E & _). eauto. Qed.
Lemma ok_inj {X} (a b : X) : Ok a = Ok b -> a = b.
Proof. congruence. Qed.
Lemma b2b_inj l : forall l', b2b l = b2b l' -> l = l'.
Proof.
  induction l as [|x l IH]; intros [|y l'] E; try discriminate; [reflexivity|]. unfold b2b in *. cbn [map] in E. injection E as E1 E2.
  rewrite (IH l' E2). f_equal. destruct x, y; cbn in E1; congruence.
Qed.
Lemma h_of_burst (A h1 M h2 Q h1' h2' : list bool) : length h1 = 2 -> length h1' = 2 -> length h2 = 2 -> length h2' = 2 -> A ++ h1 ++ M ++ h2 ++ Q = A ++ h1' ++ M ++ h2' ++ Q -> h1 = h1' /\ h2 = h2'.
Proof.
  intros L1 L1' L2 L2' E. apply app_inv_head in E. assert (E1 : h1 = h1') by (apply (f_equal (firstn 2)) in E; rewrite !firstn_app, L1, L1', Nat.sub_diag, !firstn_O, !app_nil_r in E; rewrite !firstn_all2 in E by lia; exact E).
  subst h1'. split; [reflexivity|]. apply app_inv_head in E. apply app_inv_head in E. now apply app_inv_tail in E.
Qed.
Lemma ndb_phase ts blk1 bbk blk2 h1 h2 : ts = TrainNormal1 \/ ts = TrainNormal2 -> length blk1 = 216 -> length bbk = 30 -> length blk2 = 216 -> length h1 = 2 -> length h2 = 2 ->
  build_ndb ts (b2b blk1) (b2b bbk) (b2b blk2) = Ok (b2b (ndb (train_bits ts) blk1 bbk blk2 h1 h2)) ->
  let w := ndb (train_bits ts) blk1 bbk blk2 h1 h2 in
  off h1 8 122 w = (if (phases (symbols 8 122 w) mod 4 =? 3) then 0 else 4)%Z /\ off h2 123 249 w = (if (phases (symbols 123 249 w) mod 4 =? 3) then 0 else 4)%Z.
Proof.
  intros T L1 L2 L3 H1 H2 E. destruct (ndb_spec ts blk1 bbk blk2 T L1 L2 L3) as (g1 & g2 & G1 & G2 & E' & P). rewrite E in E'. apply ok_inj, b2b_inj in E'.
  assert (Sh : forall x y, ndb (train_bits ts) blk1 bbk blk2 x y = skipn 10 normal3 ++ x ++ (blk1 ++ firstn 14 bbk ++ train_bits ts ++ skipn 14 bbk ++ blk2) ++ y ++ firstn 10 normal3) by (intros x y; unfold ndb; rewrite <- !app_assoc; reflexivity).
  rewrite !Sh in E'.
  destruct (h_of_burst _ _ _ _ _ _ _ H1 G1 H2 G2 E') as (-> & ->). exact P.
Qed.
Lemma sdb_phase blk1 bbk blk2 h1 h2 : length blk1 = 120 -> length bbk = 30 -> length blk2 = 216 -> length h1 = 2 -> length h2 = 2 ->
  build_sdb (b2b blk1) (b2b bbk) (b2b blk2) = Ok (b2b (sdb blk1 bbk blk2 h1 h2)) ->
  let w := sdb blk1 bbk blk2 h1 h2 in
  off h1 8 108 w = (if (phases (symbols 8 108 w) mod 4 =? 3) then 0 else 4)%Z /\ off h2 109 249 w = (if (phases (symbols 109 249 w) mod 4 =? 3) then 0 else 4)%Z.
Proof.
  intros L1 L2 L3 H1 H2 E. destruct (sdb_spec blk1 bbk blk2 L1 L2 L3) as (g1 & g2 & G1 & G2 & E' & P). rewrite E in E'. apply ok_inj, b2b_inj in E'.
  assert (Sh : forall x y, sdb blk1 bbk blk2 x y = skipn 10 normal3 ++ x ++ (frequency_correction ++ blk1 ++ sync ++ bbk ++ blk2) ++ y ++ firstn 10 normal3) by (intros x y; unfold sdb; rewrite <- !app_assoc; reflexivity).
  rewrite !Sh in E'. destruct (h_of_burst _ _ _ _ _ _ _ H1 G1 H2 G2 E') as (-> & ->). exact P.
Qed.
