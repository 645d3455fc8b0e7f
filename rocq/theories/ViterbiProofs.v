(** The Viterbi decoder finds a terminated message at minimum distance. *)
From Verif Require Import Base LmacSpec ArrCopyProofs Viterbi Trellis.
Open Scope Z_scope.

Definition sgn (b : bool) : Z := if b then 1 else -1.
Definition soft (o : option bool) : Z := match o with Some b => sgn b | None => 0 end.
Definition is_soft (r : Z) : Prop := -1 <= r <= 1.
(** minus the correlation *)
Fixpoint corr (c : list bool) (r : list Z) : Z := match c, r with x :: c, y :: r => - (y * sgn x) + corr c r | _, _ => 0 end.

Lemma expected_parity p s : expected_bit p s = sgn (parity4 p s).
Proof. reflexivity. Qed.
Lemma corr_bound c : forall r, Forall is_soft r -> - Z.of_nat (length r) <= corr c r <= Z.of_nat (length r).
Proof.
  induction c as [|x c IH]; intros [|y r] F; cbn [corr length]; try lia. pose proof (Forall_inv F) as Y. pose proof (IH r (Forall_inv_tail F)). unfold is_soft in Y. destruct x; cbn [sgn]; lia.
Qed.
Lemma corr_app c c' : forall r r', length c = length r -> corr (c ++ c') (r ++ r') = corr c r + corr c' r'.
Proof. induction c as [|x c IH]; intros [|y r] r' L; try discriminate; [reflexivity|]. cbn [app corr]. rewrite IH by (now injection L). lia. Qed.
Lemma corr_mismatches c : forall r, length c = length r -> corr c (map soft r) = 2 * Z.of_nat (mismatches c r) - Z.of_nat (length (filter (fun o : option bool => if o then true else false) r)).
Proof.
  induction c as [|x c IH]; intros [|y r] L; try discriminate; [reflexivity|]. cbn [corr map mismatches]. rewrite (IH r) by (now injection L). destruct y as [y|]; cbn [soft filter length].
  - destruct x, y; cbn [sgn Bool.eqb]; lia.
  - destruct x; cbn [sgn]; lia.
Qed.

Section Vit.
  Variable polys : list (list bool).
  Hypothesis last1 : Forall (fun p => nth 4 p false = true) polys.
  Let n := length polys.

  (** branch metric of entering state [t] when the dropped bit is 0 *)
  Definition bmf (r : list Z) (t : nat) : Z := corr (map (fun p => parity4 p t) polys) r.
  Definition cost1 (r : list Z) (s : nat) (b : bool) : Z := corr (touts polys s b) r.
  Fixpoint cost (s : nat) (m : list bool) (rs : list (list Z)) : Z :=
    match m, rs with b :: m, r :: rs => cost1 r s b + cost (step b s) m rs | _, _ => 0 end.
  Lemma corr_neg r : forall c, corr (map negb c) r = - corr c r.
  Proof. induction r as [|y r IH]; intros [|x c]; cbn [map corr]; try reflexivity. rewrite IH. destruct x; cbn [negb sgn]; lia. Qed.
  Lemma cost1_bmf r s b : cost1 r s b = if Nat.odd s then - bmf r (step b s) else bmf r (step b s).
  Proof.
    unfold cost1, bmf. destruct (Nat.odd s) eqn:O.
    - rewrite <- corr_neg, map_map. f_equal. unfold touts. apply map_ext_in. intros p Hp. unfold tout. rewrite O. rewrite (proj1 (Forall_forall _ _) last1 p Hp). cbn [andb]. now rewrite xorb_true_r.
    - f_equal. unfold touts. apply map_ext. intros p. unfold tout. rewrite O. cbn [andb]. apply xorb_false_r.
  Qed.
  Lemma cost_app : forall m s rs b r, length m = length rs -> cost s (m ++ [b]) (rs ++ [r]) = cost s m rs + cost1 r (fin s m) b.
  Proof. induction m as [|x m IH]; intros s [|q rs] b r L; try discriminate; cbn [app cost fin]; [lia|]. rewrite IH by (now injection L). lia. Qed.
  Lemma cost_corr : forall m s rs, length m = length rs -> Forall (fun r => length r = n) rs -> cost s m rs = corr (tcode polys s m) (concat rs).
  Proof.
    induction m as [|b m IH]; intros s [|r rs] L F; try discriminate; [reflexivity|]. cbn [cost tcode concat]. pose proof (Forall_inv F) as R. rewrite corr_app by (unfold touts; rewrite map_length, R; reflexivity).
    rewrite IH by (exact (Forall_inv_tail F) || now injection L). reflexivity.
  Qed.
  Lemma cost_bound : forall m s rs, Forall (fun r => length r = n /\ Forall is_soft r) rs -> - Z.of_nat (n * length rs) <= cost s m rs <= Z.of_nat (n * length rs).
  Proof.
    induction m as [|b m IH]; intros s [|r rs] F; cbn [cost length]; try lia. destruct (Forall_inv F) as [R1 R2]. pose proof (IH (step b s) rs (Forall_inv_tail F)). pose proof (corr_bound (touts polys s b) r R2). unfold cost1. rewrite R1 in *. lia.
  Qed.

  (** *** the loops *)
  Lemma zipM_map {A B C D} (f : B -> C -> res D) (g : A -> B) (h : A -> C) (k : A -> D) : forall l, (forall x, In x l -> f (g x) (h x) = Ok (k x)) -> zipM f (map g l) (map h l) = Ok (map k l).
  Proof. induction l as [|x l IH]; intros H; [reflexivity|]. cbn [map zipM]. rewrite H by (now left). cbn [bind]. rewrite IH by (intros y Hy; apply H; now right). reflexivity. Qed.
  Lemma i16_ok x : -32768 <= x <= 32767 -> i16 x = Ok x.
  Proof. intros H. unfold i16. replace ((-32768 <=? x) && (x <=? 32767)) with true by (symmetry; apply andb_true_iff; lia). reflexivity. Qed.
  Lemma i8_ok x : -128 <= x <= 127 -> i8 x = Ok x.
  Proof. intros H. unfold i8. replace ((-128 <=? x) && (x <=? 127)) with true by (symmetry; apply andb_true_iff; lia). reflexivity. Qed.
  Lemma branch_metrics_spec : forall ps r g, Forall is_soft r -> length r = length ps -> (forall t, - 32768 + Z.of_nat (length r) <= g t <= 32767 - Z.of_nat (length r)) ->
    branch_metrics r (expected_0 ps) (map g (seq 0 NUM_STATES)) = Ok (map (fun t => g t + corr (map (fun p => parity4 p t) ps) r) (seq 0 NUM_STATES)).
  Proof.
    induction ps as [|p ps IH]; intros [|y r] g F L G; try discriminate.
    - cbn [branch_metrics]. f_equal. apply map_ext. intros t. cbn [map corr]. lia.
    - cbn [length] in G. pose proof (Forall_inv F) as Y. unfold is_soft in Y. unfold expected_0. cbn [map branch_metrics].
      rewrite (zipM_map _ g (expected_bit p) (fun t => g t - y * sgn (parity4 p t))).
      + cbn [bind]. fold (expected_0 ps). rewrite (IH r (fun t => g t - y * sgn (parity4 p t))); [|exact (Forall_inv_tail F)|now injection L|intros t; specialize (G t); destruct (parity4 p t); cbn [sgn]; lia].
        f_equal. apply map_ext. intros t. cbn [map corr]. lia.
      + intros t _. rewrite expected_parity, i8_ok by (destruct (parity4 p t); cbn [sgn]; lia). cbn [bind]. apply i16_ok. specialize (G t). destruct (parity4 p t); cbn [sgn]; lia.
  Qed.
  Definition p0 (t : nat) : nat := (t * 2 mod NUM_STATES)%nat.
  Definition pick (M B : nat -> Z) (t : nat) : Z * bool :=
    let m0 := M (p0 t) + B t in let m1 := M (p0 t + 1)%nat - B t in if m1 <? m0 then (m1, true) else (m0, false).
  Lemma p0_bound t : (p0 t + 1 < NUM_STATES)%nat.
  Proof.
    unfold p0, NUM_STATES. pose proof (Nat.mod_upper_bound (t * 2) 16). assert (E : ((t * 2) mod 16 = 2 * (t mod 8))%nat). { replace 16%nat with (2 * 8)%nat by reflexivity. rewrite (Nat.mul_comm t 2). apply Nat.mul_mod_distr_l; lia. }
    pose proof (Nat.mod_upper_bound t 8). lia.
  Qed.
  Lemma new_metrics_spec M B : (forall t u, (t < NUM_STATES)%nat -> (u < NUM_STATES)%nat -> -32768 <= M t + B u <= 32767 /\ -32768 <= M t - B u <= 32767) ->
    forall states, (forall t, In t states -> (t < NUM_STATES)%nat) -> new_metrics (map M (seq 0 NUM_STATES)) (map B (seq 0 NUM_STATES)) states = Ok (map (pick M B) states).
  Proof.
    intros H. induction states as [|t states IH]; intros I; [reflexivity|]. cbn [new_metrics]. fold (p0 t). pose proof (p0_bound t) as P. assert (T : (t < NUM_STATES)%nat) by (apply I; now left).
    rewrite !nth_map_seq by lia. rewrite !i16_ok by (apply H; lia). cbn [bind]. rewrite IH by (intros u Hu; apply I; now right). reflexivity.
  Qed.

  (** *** traced paths *)
  Fixpoint tb (dec : list (list bool)) (best : nat) : list bool :=
    match dec with [] => [] | d :: dec => tb dec (best * 2 mod NUM_STATES + (if nth best d false then 1 else 0))%nat ++ [Nat.testbit best (K - 2)] end.
  Lemma traceback_tb dec : forall best acc, traceback dec best acc = map N.b2n (tb dec best) ++ acc.
  Proof. induction dec as [|d dec IH]; intros best acc; [reflexivity|]. cbn [traceback tb]. rewrite IH, map_app, <- app_assoc. cbn [map app]. destruct (Nat.testbit best (K - 2)); reflexivity. Qed.

  Lemma step_bound b s : (s < 16)%nat -> (step b s < 16)%nat.
  Proof. intros H. unfold step. assert (s / 2 < 8)%nat by (apply Nat.div_lt_upper_bound; lia). destruct b; lia. Qed.
  Lemma step_pred b s t : (s < 16)%nat -> step b s = t -> (s = p0 t \/ s = p0 t + 1)%nat /\ b = Nat.testbit t (K - 2) /\ (Nat.odd s = true <-> s = (p0 t + 1)%nat).
  Proof.
    intros H <-. do 16 (destruct s as [|s]; [destruct b; vm_compute; repeat split; intros; try discriminate; auto|]). lia.
  Qed.
  Lemma step_back t (x : bool) : (t < 16)%nat -> step (Nat.testbit t (K - 2)) (p0 t + (if x then 1 else 0)) = t /\ Nat.odd (p0 t + (if x then 1 else 0)) = x /\ (p0 t + (if x then 1 else 0) < 16)%nat.
  Proof. intros H. do 16 (destruct t as [|t]; [destruct x; vm_compute; repeat split; lia|]). lia. Qed.

  Definition init (s : nat) : Z := match s with O => 0 | _ => 16383 end.
  Lemma init_metrics_eq : init_metrics = map init (seq 0 NUM_STATES).
  Proof. reflexivity. Qed.
  Record inv (rs : list (list Z)) (M : nat -> Z) (dec : list (list bool)) : Prop := mk_inv {
    inv_le : forall t s m, (t < 16)%nat -> (s < 16)%nat -> length m = length rs -> fin s m = t -> M t <= init s + cost s m rs;
    inv_tb : forall t, (t < 16)%nat -> length (tb dec t) = length rs /\ exists s, (s < 16)%nat /\ fin s (tb dec t) = t /\ M t = init s + cost s (tb dec t) rs }.
  Lemma inv_0 : inv [] init [].
  Proof.
    split.
    - intros t s [|b m] T S L E; [|discriminate]. cbn [fin] in E. subst. cbn [cost]. lia.
    - intros t T. split; [reflexivity|]. exists t. split; [assumption|]. split; [reflexivity|]. cbn [tb cost]. lia.
  Qed.
  Lemma fin_bound m : forall s, (s < 16)%nat -> (fin s m < 16)%nat.
  Proof. induction m as [|b m IH]; intros s H; [assumption|]. cbn [fin]. apply IH. now apply step_bound. Qed.
  Lemma inv_step rs M dec r : inv rs M dec -> inv (rs ++ [r]) (fun t => fst (pick M (bmf r) t)) (map snd (map (pick M (bmf r)) (seq 0 NUM_STATES)) :: dec).
  Proof.
    intros [H1 H2]. split.
    - intros t s m T S L E. destruct m as [|b m _] using rev_ind; [rewrite app_length in L; cbn [length] in L; lia|]. rewrite !app_length in L. cbn [length] in L. rewrite fin_app in E. cbn [fin] in E.
      rewrite cost_app by lia. assert (LE : length m = length rs) by lia. pose proof (fin_bound m s S) as FB. destruct (step_pred b (fin s m) t FB E) as (P & _ & O).
      pose proof (H1 (fin s m) s m FB S LE eq_refl) as G. rewrite cost1_bmf, E. unfold pick. cbv zeta.
      destruct P as [P|P].
      + assert (OF : Nat.odd (fin s m) = false) by (destruct (Nat.odd (fin s m)); [exfalso; assert (fin s m = (p0 t + 1)%nat) by (now apply O); lia|reflexivity]). rewrite OF. rewrite P in G.
        destruct (Z.ltb_spec (M (p0 t + 1)%nat - bmf r t) (M (p0 t) + bmf r t)); cbn [fst]; lia.
      + rewrite (proj2 O P). rewrite P in G. destruct (Z.ltb_spec (M (p0 t + 1)%nat - bmf r t) (M (p0 t) + bmf r t)); cbn [fst]; lia.
    - intros t T. cbn [tb]. rewrite map_map. rewrite (nth_map_seq (fun x => snd (pick M (bmf r) x))) by assumption. set (x := snd (pick M (bmf r) t)). fold (p0 t).
      destruct (step_back t x T) as (B1 & B2 & B3). set (q := (p0 t + (if x then 1 else 0))%nat) in *. destruct (H2 q B3) as (L & s & S & F & E).
      rewrite !app_length. cbn [length]. split; [lia|]. exists s. split; [assumption|]. rewrite fin_app. cbn [fin]. rewrite F. split; [assumption|]. rewrite cost_app by assumption. rewrite F, cost1_bmf, B1, B2. rewrite Z.add_assoc, <- E.
      unfold pick in *. cbv zeta in *. destruct (Z.ltb_spec (M (p0 t + 1)%nat - bmf r t) (M (p0 t) + bmf r t)); cbn [fst snd] in *; subst x q; cbv iota; [|rewrite Nat.add_0_r]; lia.
  Qed.
  Lemma inv_bound rs M dec : inv rs M dec -> Forall (fun r => length r = n /\ Forall is_soft r) rs -> forall t, (t < 16)%nat -> - Z.of_nat (n * length rs) <= M t <= 16383 + Z.of_nat (n * length rs).
  Proof. intros [_ H] F t T. destruct (H t T) as (_ & s & _ & _ & ->). pose proof (cost_bound (tb dec t) s rs F). destruct s; cbn [init]; lia. Qed.

  Lemma decode_loop_spec : forall chs rs M dec, inv rs M dec -> Forall (fun r => length r = n /\ Forall is_soft r) (rs ++ chs) -> 16383 + Z.of_nat (n * length (rs ++ chs)) <= 32767 ->
    exists M' dec', decode_loop n (expected_0 polys) (length chs) (concat chs) (map M (seq 0 NUM_STATES)) dec = Ok dec' /\ inv (rs ++ chs) M' dec'.
  Proof.
    induction chs as [|r chs IH]; intros rs M dec H F B.
    - exists M, dec. rewrite app_nil_r. split; [reflexivity|assumption].
    - cbn [length concat decode_loop]. assert (FR : length r = n /\ Forall is_soft r) by (apply (proj1 (Forall_forall _ _) F); apply in_or_app; right; now left). destruct FR as [R1 R2].
      rewrite app_length in B. cbn [length] in B. assert (FRS : Forall (fun r => length r = n /\ Forall is_soft r) rs) by (apply Forall_app in F; apply F). pose proof (inv_bound rs M dec H FRS) as MB.
      assert (E1 : firstn n (r ++ concat chs) = r) by (rewrite firstn_app, R1, Nat.sub_diag, <- R1, firstn_all, app_nil_r; reflexivity).
      assert (E2 : skipn n (r ++ concat chs) = concat chs) by (rewrite skipn_app, R1, Nat.sub_diag, <- R1, skipn_all; reflexivity).
      rewrite E1, E2. change (repeat 0 NUM_STATES) with (map (fun _ : nat => 0) (seq 0 NUM_STATES)).
      assert (BB : forall t, bmf r t = bmf r t /\ - Z.of_nat n <= bmf r t <= Z.of_nat n) by (intros t; split; [reflexivity|]; unfold bmf; pose proof (corr_bound (map (fun p => parity4 p t) polys) r R2); lia).
      rewrite branch_metrics_spec; [|assumption|exact R1|intros t; lia]. cbn [bind].
      rewrite (map_ext (fun t => 0 + corr (map (fun p => parity4 p t) polys) r) (bmf r)) by (intros t; unfold bmf; lia).
      rewrite new_metrics_spec; [|intros t u T U; pose proof (proj2 (BB u)); pose proof (MB t T); lia|intros t Ht; apply in_seq in Ht; lia]. cbn [bind]. rewrite (map_map (pick M (bmf r)) fst).
      destruct (IH (rs ++ [r]) (fun t => fst (pick M (bmf r) t)) (map snd (map (pick M (bmf r)) (seq 0 NUM_STATES)) :: dec)) as (M' & dec' & E & I).
      + now apply inv_step.
      + rewrite <- app_assoc. exact F.
      + rewrite <- app_assoc. cbn [app]. rewrite app_length. cbn [length]. exact B.
      + exists M', dec'. split; [exact E|]. rewrite <- app_assoc in I. exact I.
  Qed.

  Fixpoint chunks (k : nat) (l : list Z) : list (list Z) := match k with O => [] | S k => firstn n l :: chunks k (skipn n l) end.
  Lemma chunks_facts k : forall l, length l = (k * n)%nat -> concat (chunks k l) = l /\ length (chunks k l) = k /\ (Forall is_soft l -> Forall (fun r => length r = n /\ Forall is_soft r) (chunks k l)).
  Proof.
    induction k as [|k IH]; intros l L; cbn [chunks concat length].
    - destruct l; [|discriminate]. split; [reflexivity|]. split; [reflexivity|]. intros _. constructor.
    - destruct (IH (skipn n l)) as (A & B & C); [rewrite skipn_length; lia|]. rewrite A, B. split; [apply firstn_skipn|]. split; [reflexivity|]. intros F. rewrite <- (firstn_skipn n l) in F. apply Forall_app in F. destruct F as [F1 F2].
      constructor; [split; [rewrite firstn_length; lia|assumption]|]. now apply C.
  Qed.

  Lemma viterbi_spec k r : (0 < n)%nat -> length r = (k * n)%nat -> Forall is_soft r -> 2 * Z.of_nat (k * n) < 16383 ->
    exists m, viterbi_decode polys r = Ok (map N.b2n m) /\ length m = k /\ fin 0 m = 0%nat /\
      forall m', length m' = k -> fin 0 m' = 0%nat -> corr (tcode polys 0 m) r <= corr (tcode polys 0 m') r.
  Proof.
    intros N0 L F B. unfold viterbi_decode. fold n. destruct (Nat.eqb_spec n 0); [lia|]. cbn [negb assert bind]. rewrite L, Nat.div_mul by lia. rewrite init_metrics_eq.
    destruct (chunks_facts k r L) as (C1 & C2 & C3). specialize (C3 F). 
    replace (decode_loop n (expected_0 polys) k r (map init (seq 0 NUM_STATES)) []) with (decode_loop n (expected_0 polys) (length (chunks k r)) (concat (chunks k r)) (map init (seq 0 NUM_STATES)) []) by (rewrite C1, C2; reflexivity).
    destruct (decode_loop_spec (chunks k r) [] init [] inv_0 C3) as (M & dec & E & I); [cbn [app]; rewrite C2; lia|]. rewrite E. cbn [bind]. cbn [app] in I. rewrite traceback_tb, app_nil_r. exists (tb dec 0). split; [reflexivity|].
    destruct I as [I1 I2]. destruct (I2 0%nat) as (LT & s & S & FS & MS); [lia|]. rewrite C2 in *. split; [assumption|].
    assert (FL : Forall (fun x : list Z => length x = n) (chunks k r)) by (eapply Forall_impl; [|exact C3]; cbv beta; intros a Ha; apply Ha).
    assert (S0 : s = 0%nat).
    { destruct s as [|s']; [reflexivity|exfalso]. assert (Z0 : fin 0 (repeat false k) = 0%nat) by (clear; induction k; [reflexivity|assumption]).
      pose proof (I1 0%nat 0%nat (repeat false k) ltac:(lia) ltac:(lia) (repeat_length _ _) Z0) as Q. pose proof (cost_bound (repeat false k) 0 (chunks k r) C3). pose proof (cost_bound (tb dec 0) (Datatypes.S s') (chunks k r) C3). cbn [init] in *. rewrite C2 in *. lia. }
    subst s. split; [assumption|]. intros m' L' F'. pose proof (I1 0%nat 0%nat m' ltac:(lia) ltac:(lia) L' F') as Q. rewrite MS in Q. cbn [init] in Q.
    rewrite !cost_corr in Q by (assumption || congruence). rewrite C1 in Q. lia.
  Qed.
End Vit.

Theorem viterbi_optimal polys r k : polys <> [] -> Forall (fun p => nth 4 p false = true) polys -> length r = (k * length polys)%nat -> (2 * Z.of_nat (k * length polys) < 16383) ->
  exists m, viterbi_decode polys (map soft r) = Ok (map N.b2n m) /\ length m = k /\ terminated m /\
    forall m', length m' = k -> terminated m' -> (mismatches (conv_code polys m) r <= mismatches (conv_code polys m') r)%nat.
Proof.
  intros NE L1 L B. destruct (viterbi_spec polys L1 k (map soft r)) as (m & E & LM & FM & O).
  - destruct polys; [congruence|cbn; lia].
  - now rewrite map_length.
  - apply Forall_forall. intros x Hx. apply in_map_iff in Hx. destruct Hx as ([[]|] & <- & _); unfold is_soft; cbn; lia.
  - assumption.
  - exists m. split; [assumption|]. split; [assumption|]. split; [now apply fin_terminated|]. intros m' L' T'. specialize (O m' L' (proj2 (fin_terminated m') T')). rewrite !conv_tcode.
    rewrite !corr_mismatches in O by (rewrite tcode_length; congruence). lia.
Qed.
