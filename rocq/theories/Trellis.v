(** The convolutional code as a trellis; the encoder computes it. *)
From Verif Require Import Base LmacSpec ConvEnc.

Definition step (b : bool) (s : nat) : nat := ((if b then 8 else 0) + s / 2)%nat.
Definition parity4 (poly : list bool) (st : nat) : bool :=
  fold_left (fun out bit_i => if Nat.testbit st (5 - 2 - bit_i) && nth bit_i poly false then negb out else out) (seq 0 (5 - 1)) false.
Definition tout (poly : list bool) (s : nat) (b : bool) : bool := xorb (parity4 poly (step b s)) (Nat.odd s && nth 4 poly false).
Definition touts (polys : list (list bool)) (s : nat) (b : bool) : list bool := map (fun p => tout p s b) polys.
Fixpoint tcode (polys : list (list bool)) (s : nat) (m : list bool) : list bool :=
  match m with [] => [] | b :: m => touts polys s b ++ tcode polys (step b s) m end.
Fixpoint fin (s : nat) (m : list bool) : nat := match m with [] => s | b :: m => fin (step b s) m end.

Definition st (a b c d : bool) : nat := ((if a then 8 else 0) + (if b then 4 else 0) + (if c then 2 else 0) + (if d then 1 else 0))%nat.
Lemma step_st x a b c d : step x (st a b c d) = st x a b c.
Proof. destruct x, a, b, c, d; reflexivity. Qed.
Lemma tout_st p x a b c d : tout p (st a b c d) x =
  xorb (xorb (xorb (xorb (x && nth 0 p false) (a && nth 1 p false)) (b && nth 2 p false)) (c && nth 3 p false)) (d && nth 4 p false).
Proof.
  unfold tout, parity4. rewrite step_st. change (seq 0 (5 - 1)) with [0; 1; 2; 3]%nat. cbn [fold_left Nat.sub].
  generalize (nth 0 p false), (nth 1 p false), (nth 2 p false), (nth 3 p false), (nth 4 p false). intros p0 p1 p2 p3 p4.
  destruct x, a, b, c, d, p0, p1, p2, p3, p4; reflexivity.
Qed.
Definition hist (h : list bool) : nat := fold_right step 0%nat h.
Lemma hist_st h : hist h = st (nth 0 h false) (nth 1 h false) (nth 2 h false) (nth 3 h false).
Proof. induction h as [|b h IH]; [reflexivity|]. change (hist (b :: h)) with (step b (hist h)). rewrite IH, step_st. reflexivity. Qed.

Lemma nth_rev_app h (m : list bool) j : (1 <= j)%nat -> ((j <=? length h)%nat && nth (length h - j) (rev h ++ m) false) = nth (j - 1) h false.
Proof.
  intros J. destruct (Nat.leb_spec j (length h)) as [L|L].
  - cbn [andb]. rewrite app_nth1 by (rewrite rev_length; lia). rewrite rev_nth by lia. f_equal. lia.
  - cbn [andb]. rewrite nth_overflow by lia. reflexivity.
Qed.
Lemma conv_bit_tout p h b m : conv_bit p (rev h ++ b :: m) (length h) = tout p (hist h) b.
Proof.
  rewrite hist_st, tout_st. unfold conv_bit. change (seq 0 5) with [0; 1; 2; 3; 4]%nat. cbn [map fold_left].
  rewrite <- !andb_assoc. rewrite (nth_rev_app h (b :: m) 1), (nth_rev_app h (b :: m) 2), (nth_rev_app h (b :: m) 3), (nth_rev_app h (b :: m) 4) by lia. change (0 <=? length h)%nat with true. rewrite Nat.sub_0_r. rewrite app_nth2 by (rewrite rev_length; lia). rewrite rev_length, Nat.sub_diag.
  change (1 - 1)%nat with 0%nat. change (2 - 1)%nat with 1%nat. change (3 - 1)%nat with 2%nat. change (4 - 1)%nat with 3%nat. change (nth 0 (b :: m) false) with b. cbn [andb].
  generalize (nth 0 p false), (nth 1 p false), (nth 2 p false), (nth 3 p false), (nth 4 p false), (nth 0 h false), (nth 1 h false), (nth 2 h false), (nth 3 h false).
  intros [] [] [] [] [] [] [] [] []; destruct b; reflexivity.
Qed.
Lemma conv_tcode_gen polys m : forall h, flat_map (fun k => map (fun p => conv_bit p (rev h ++ m) k) polys) (seq (length h) (length m)) = tcode polys (hist h) m.
Proof.
  induction m as [|b m IH]; intros h; [reflexivity|]. cbn [length seq flat_map tcode]. f_equal.
  - unfold touts. apply map_ext. intros p. apply conv_bit_tout.
  - specialize (IH (b :: h)). cbn [length rev] in IH. rewrite <- app_assoc in IH. exact IH.
Qed.
Lemma conv_tcode polys m : conv_code polys m = tcode polys 0 m.
Proof. exact (conv_tcode_gen polys m []). Qed.
Lemma fin_app s m m' : fin s (m ++ m') = fin (fin s m) m'.
Proof. revert s. induction m as [|b m IH]; intros s; [reflexivity|]. apply IH. Qed.
Lemma tcode_app polys m m' : forall s, tcode polys s (m ++ m') = tcode polys s m ++ tcode polys (fin s m) m'.
Proof. induction m as [|b m IH]; intros s; [reflexivity|]. cbn [app tcode fin]. rewrite IH. apply app_assoc. Qed.
Lemma fin_hist m : forall h, fin (hist h) m = hist (rev m ++ h).
Proof. induction m as [|b m IH]; intros h; [reflexivity|]. cbn [fin rev]. rewrite <- app_assoc. exact (IH (b :: h)). Qed.
Lemma tcode_length polys s m : length (tcode polys s m) = (length m * length polys)%nat.
Proof. revert s. induction m as [|b m IH]; intros s; [reflexivity|]. cbn [tcode length Nat.mul]. rewrite app_length, IH. unfold touts. now rewrite map_length. Qed.

(** ending in state 0 = terminated *)
Lemma fin_terminated m : fin 0 m = 0%nat <-> terminated m.
Proof.
  change (fin 0 m) with (fin (hist []) m). rewrite fin_hist, app_nil_r, hist_st.
  assert (E : forall a b c d, st a b c d = 0%nat <-> a = false /\ b = false /\ c = false /\ d = false) by (intros [] [] [] []; cbn; intuition discriminate).
  rewrite E. assert (R : forall j, nth j (rev m) false = if (j <? length m)%nat then nth (length m - S j) m false else false).
  { intros j. destruct (Nat.ltb_spec j (length m)); [apply rev_nth; assumption|apply nth_overflow; rewrite rev_length; assumption]. }
  split.
  - intros (A & B & C & D) i Hi. rewrite R in A, B, C, D. assert (Q : (length m - i = 1 \/ length m - i = 2 \/ length m - i = 3 \/ length m - i = 4)%nat) by lia.
    destruct Q as [Q|[Q|[Q|Q]]];
    [replace i with (length m - 1)%nat by lia; destruct (Nat.ltb_spec 0 (length m)); [exact A|lia]
    |replace i with (length m - 2)%nat by lia; destruct (Nat.ltb_spec 1 (length m)); [exact B|lia]
    |replace i with (length m - 3)%nat by lia; destruct (Nat.ltb_spec 2 (length m)); [exact C|lia]
    |replace i with (length m - 4)%nat by lia; destruct (Nat.ltb_spec 3 (length m)); [exact D|lia]].
  - intros T. assert (G : forall j, (j < 4)%nat -> nth j (rev m) false = false).
    { intros j Hj. rewrite R. destruct (Nat.ltb_spec j (length m)); [|reflexivity]. apply T. lia. }
    repeat split; apply G; lia.
Qed.

(** ** The encoder *)
Open Scope N_scope.
Definition cst (a b c d : bool) : cstate := (N.b2n a, N.b2n b, N.b2n c, N.b2n d).
Definition enc_ok (f : cstate -> N -> list N * cstate) (polys : list (list bool)) : Prop :=
  forall x a b c d, f (cst a b c d) (N.b2n x) = (map N.b2n (touts polys (st a b c d) x), cst x a b c).
Lemma cch_enc_ok : enc_ok cch_encode_bit CCH_GENERATORS.
Proof. intros [] [] [] [] []; reflexivity. Qed.
Lemma speech_enc_ok : enc_ok speech_encode_bit SPEECH_GENERATORS.
Proof. intros [] [] [] [] []; reflexivity. Qed.
Lemma enc_loop_spec f polys : enc_ok f polys -> forall m a b c d, exists a' b' c' d',
  enc_loop f (cst a b c d) (map N.b2n m) = (map N.b2n (tcode polys (st a b c d) m), cst a' b' c' d') /\ fin (st a b c d) m = st a' b' c' d'.
Proof.
  intros F. induction m as [|x m IH]; intros a b c d.
  - exists a, b, c, d. split; reflexivity.
  - cbn [map enc_loop tcode fin]. rewrite F, step_st. destruct (IH x a b c) as (a' & b' & c' & d' & E & H). rewrite E. exists a', b', c', d'. split; [|assumption]. now rewrite map_app.
Qed.
