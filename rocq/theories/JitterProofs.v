(** Proofs about the jitter buffer. *)
From Verif Require Import Base JitterBuffer JitterSpec.
Open Scope nat_scope.

Section P.
Context {F : Type}.
Implicit Types (b : jbuf F) (l : list (jcall F)).

Lemma trim_short (fs : list (jframe F)) d : length fs <= 24 -> jb_trim fs d = (fs, d).
Proof.
  destruct fs as [|f t]; [reflexivity|]. intros H. cbn [jb_trim]. unfold JITTER_MAX_FRAMES.
  destruct (Nat.ltb_spec 24 (length (f :: t))); [lia|reflexivity].
Qed.
Lemma trim_one (f : jframe F) t d : length t = 24 -> jb_trim (f :: t) d = (t, (d + 1)%N).
Proof.
  intros H. cbn [jb_trim]. unfold JITTER_MAX_FRAMES at 1. cbn [length]. rewrite H.
  change (24 <? 25) with true. cbn iota. rewrite trim_short by lia. reflexivity.
Qed.

(** What is true of a buffer that answered [os] to the calls [l]. *)
Definition jinv l (os : list (option (jframe F))) b : Prop :=
  2 <= jb_target b <= 14 /\ jb_started b = running os /\ jb_next_seq b = N.of_nat (length (arrivals 0 l)) /\
  length (jb_frames b) <= 24 /\
  exists fates past, length fates = length (arrivals 0 l) /\
    fates = past ++ repeat Waiting (length (jb_frames b)) /\ ~ In Waiting past /\
    handed_out os = met Played fates (arrivals 0 l) /\
    jb_frames b = met Waiting fates (arrivals 0 l) /\
    jb_dropped b = N.of_nat (length (met Dropped fates (arrivals 0 l))).

Lemma arrivals_app n l1 l2 : arrivals n (l1 ++ l2) = arrivals n l1 ++ arrivals (n + N.of_nat (length (arrivals n l1)))%N l2.
Proof.
  revert n; induction l1 as [|[jc [d|]] t IH]; intros n; cbn [arrivals app length].
  - f_equal. lia.
  - rewrite IH. cbn [app]. do 3 f_equal. lia.
  - apply IH.
Qed.
Lemma combine_app'' {A B} (a1 a2 : list A) (b1 b2 : list B) : length a1 = length b1 ->
  combine (a1 ++ a2) (b1 ++ b2) = combine a1 b1 ++ combine a2 b2.
Proof. revert b1; induction a1 as [|x a IH]; intros [|y b1]; cbn; intros H; try lia; [reflexivity|]. now rewrite IH by lia. Qed.
Lemma met_app {A} x f1 f2 (l1 l2 : list A) : length f1 = length l1 -> met x (f1 ++ f2) (l1 ++ l2) = met x f1 l1 ++ met x f2 l2.
Proof. intros H. unfold met. now rewrite combine_app'', filter_app, map_app by assumption. Qed.
Lemma met_repeat {A} x y (l : list A) n : length l = n -> met x (repeat y n) l = if fate_eqb x y then l else [].
Proof.
  intros <-. unfold met. induction l as [|a t IH]; cbn [length repeat combine filter fst]; [now destruct (fate_eqb x y)|].
  destruct (fate_eqb x y); cbn [map snd]; now rewrite IH.
Qed.
Lemma met_none {A} x f (l : list A) : ~ In x f -> met x f l = [].
Proof.
  revert l; induction f as [|y t IH]; intros [|a l] H; try reflexivity. unfold met. cbn [combine filter fst].
  replace (fate_eqb x y) with false; [apply IH; intros Q; apply H; now right|].
  destruct x, y; try reflexivity; exfalso; apply H; now left.
Qed.

Lemma default_target_id b : 2 <= jb_target b -> jb_default_target b = b.
Proof. intros H. unfold jb_default_target. destruct (Nat.eqb_spec (jb_target b) 0); [lia|reflexivity]. Qed.

Lemma clamp_bounds jc b : 2 <= jb_target (jb_recompute jc b) <= 14.
Proof. unfold jb_recompute, JITTER_MIN_FRAMES, JITTER_TARGET_MAX_FRAMES. cbn [jb_target]. lia. Qed.

Lemma push_frames jc d b : 2 <= jb_target b -> length (jb_frames b) <= 24 ->
  let x := mk_jframe (jb_next_seq b) d in
  jb_frames (jb_push jc d b) = (if length (jb_frames b) =? 24 then tl (jb_frames b) else jb_frames b) ++ [x] /\
  jb_dropped (jb_push jc d b) = (jb_dropped b + (if (length (jb_frames b) =? 24)%nat then 1 else 0))%N /\
  jb_next_seq (jb_push jc d b) = (jb_next_seq b + 1)%N /\ jb_started (jb_push jc d b) = jb_started b /\
  2 <= jb_target (jb_push jc d b) <= 14.
Proof.
  intros T L x. unfold jb_push. rewrite (default_target_id b T).
  destruct (Nat.eqb_spec (length (jb_frames b)) 24) as [E|E].
  - destruct (jb_frames b) as [|f t] eqn:Ef; [discriminate E|]. cbn [app tl].
    rewrite trim_one by (rewrite app_length; cbn in *; lia).
    cbn [jb_recompute jb_frames jb_dropped jb_next_seq jb_started]. repeat (split; [reflexivity|]). apply clamp_bounds.
  - rewrite trim_short by (rewrite app_length; cbn; lia).
    cbn [jb_recompute jb_frames jb_dropped jb_next_seq jb_started]. rewrite N.add_0_r. repeat (split; [reflexivity|]). apply clamp_bounds.
Qed.

Lemma pop_cases jc b : 2 <= jb_target b <= 14 ->
  let o := fst (jb_pop jc b) in let b' := snd (jb_pop jc b) in
  2 <= jb_target b' <= 14 /\ jb_next_seq b' = jb_next_seq b /\ jb_dropped b' = jb_dropped b /\
  (if jb_started b || (jb_target b <=? length (jb_frames b)) then
     match jb_frames b with
     | f :: rest => o = Some f /\ jb_frames b' = rest /\ jb_started b' = true
     | [] => o = None /\ jb_frames b' = [] /\ jb_started b' = false
     end
   else o = None /\ b' = b).
Proof.
  intros T. unfold jb_pop. rewrite default_target_id by lia.
  destruct (jb_started b) eqn:S; cbn [negb andb orb].
  - destruct (jb_frames b) as [|f rest] eqn:Ef; cbn [fst snd].
    + split; [apply clamp_bounds|]. repeat split; reflexivity.
    + unfold jb_after_pop. repeat match goal with |- context [if ?c then _ else _] => destruct c end;
        (split; [apply clamp_bounds || exact T|repeat split; reflexivity]).
  - destruct (Nat.leb_spec (jb_target b) (length (jb_frames b))) as [L|L];
      destruct (Nat.ltb_spec (length (jb_frames b)) (jb_target b)) as [L'|L']; try lia.
    + destruct (jb_frames b) as [|f rest] eqn:Ef; cbn [fst snd].
      * cbn in L. lia.
      * unfold jb_after_pop. repeat match goal with |- context [if ?c then _ else _] => destruct c end;
        (split; [apply clamp_bounds || exact T|repeat split; reflexivity]).
    + cbn [fst snd]. repeat split; auto; lia.
Qed.

Lemma running_snoc {A} (os : list (option A)) o : running (os ++ [o]) = match o with Some _ => true | None => false end.
Proof. unfold running. rewrite rev_app_distr. cbn. now destruct o. Qed.
Lemma handed_app {A} (a b : list (option A)) : handed_out (a ++ b) = handed_out a ++ handed_out b.
Proof. unfold handed_out. apply flat_map_app. Qed.

Lemma repeat_snoc {A} (x : A) n : repeat x n ++ [x] = x :: repeat x n.
Proof. induction n; cbn; [reflexivity|]. now rewrite IHn. Qed.

Lemma inv_push jc d l os b : jinv l os b -> jinv (l ++ [(jc, Some d)]) os (jb_push jc d b).
Proof.
  intros (T & R & Nx & L & fates & past & Hl & Hf & Hn & Hp & Hw & Hd).
  destruct (push_frames jc d b (proj1 T) L) as (Pf & Pd & Pn & Ps & Pt).
  assert (A : arrivals 0 (l ++ [(jc, Some d)]) = arrivals 0 l ++ [mk_jframe (jb_next_seq b) d])
    by (rewrite arrivals_app; cbn [arrivals]; now rewrite Nx).
  unfold jinv. rewrite A, !app_length. cbn [length].
  split; [exact Pt|]. split; [congruence|]. split; [rewrite Pn, Nx; lia|].
  assert (Lp : length past + length (jb_frames b) = length (arrivals 0 l)) by (rewrite <- Hl, Hf, app_length, repeat_length; lia).
  set (arr := arrivals 0 l) in *.
  destruct (Nat.eqb_spec (length (jb_frames b)) 24) as [E|E].
  - destruct (jb_frames b) as [|f t] eqn:Ef; [discriminate E|]. cbn [tl] in Pf. cbn [length repeat] in *.
    split; [rewrite Pf, app_length; cbn; lia|].
    (* split the arrivals at the oldest waiting frame *)
    destruct (skipn (length past) arr) as [|a rest] eqn:Es.
    { apply (f_equal (@length _)) in Es. rewrite skipn_length in Es. cbn in Es. lia. }
    assert (Ea : arr = firstn (length past) arr ++ a :: rest) by (rewrite <- Es; symmetry; apply firstn_skipn).
    assert (Lf : length past = length (firstn (length past) arr)) by (rewrite firstn_length; lia).
    assert (Lr : length rest = length t).
    { apply (f_equal (@length _)) in Ea. rewrite app_length in Ea. cbn [length] in Ea. lia. }
    set (pre := firstn (length past) arr) in *.
    rewrite Hf, Ea in Hw, Hp, Hd. rewrite met_app in Hw, Hp, Hd by assumption.
    change (Waiting :: repeat Waiting (length t)) with (repeat Waiting (S (length t))) in Hw, Hp, Hd.
    rewrite met_repeat in Hw, Hp, Hd by (cbn; lia). cbn [fate_eqb] in Hw, Hp, Hd.
    rewrite met_none in Hw by assumption. cbn [app] in Hw. injection Hw as -> ->. rewrite app_nil_r in Hp, Hd.
    assert (Lp2 : length (past ++ [Dropped]) = length (pre ++ [a])) by (rewrite !app_length; cbn; lia).
    exists ((past ++ [Dropped]) ++ repeat Waiting (S (length rest))), (past ++ [Dropped]).
    split; [rewrite !app_length, repeat_length; cbn [length]; lia|].
    split; [rewrite Pf, app_length; cbn [length]; do 2 f_equal; lia|].
    split; [intros Q; apply in_app_or in Q; destruct Q as [Q|[Q|[]]]; [contradiction|discriminate]|].
    rewrite Ea. replace ((pre ++ a :: rest) ++ [mk_jframe (jb_next_seq b) d]) with ((pre ++ [a]) ++ (rest ++ [mk_jframe (jb_next_seq b) d])).
    2:{ rewrite <- !app_assoc. reflexivity. }
    rewrite !met_app by assumption.
    rewrite !met_repeat by (rewrite app_length; cbn; lia). cbn [fate_eqb]. rewrite ?app_nil_r.
    split; [rewrite Hp; cbn; now rewrite ?app_nil_r|].
    split; [rewrite Pf, met_none by assumption; reflexivity|].
    rewrite Pd, Hd, app_length. cbn [met combine filter fst fate_eqb map snd length]. change (length (met Dropped [Dropped] [a])) with 1. lia.
  - split; [rewrite Pf, app_length; cbn; lia|].
    exists (fates ++ [Waiting]), past.
    split; [rewrite app_length; cbn; lia|].
    split; [rewrite Pf, app_length, Hf; cbn [length]; rewrite <- app_assoc; f_equal; rewrite Nat.add_1_r; apply repeat_snoc|].
    split; [assumption|].
    rewrite !met_app by assumption.
    split; [rewrite <- Hp; cbn; now rewrite app_nil_r|].
    split; [rewrite Pf, <- Hw; reflexivity|].
    rewrite Pd, Hd, app_length. cbn. lia.
Qed.

Lemma inv_pop jc l os b : jinv l os b -> jinv (l ++ [(jc, None)]) (os ++ [fst (jb_pop jc b)]) (snd (jb_pop jc b)).
Proof.
  intros (T & R & Nx & L & fates & past & Hl & Hf & Hn & Hp & Hw & Hd).
  destruct (pop_cases jc b T) as (Pt & Pn & Pd & C).
  assert (A : arrivals 0 (l ++ [(jc, None)]) = arrivals 0 l) by (rewrite arrivals_app; cbn [arrivals]; apply app_nil_r).
  unfold jinv. rewrite A, running_snoc, handed_app, Pn, Pd.
  split; [exact Pt|].
  destruct (jb_started b || (jb_target b <=? length (jb_frames b))) eqn:G.
  - destruct (jb_frames b) as [|f t] eqn:Ef; destruct C as (Co & Cf & Cs); rewrite Co, Cf, Cs.
    + split; [reflexivity|]. split; [assumption|]. split; [cbn; lia|].
      exists fates, past. change (handed_out [None]) with (@nil (jframe F)). rewrite !app_nil_r. cbn [length repeat] in Hf. rewrite ?app_nil_r in Hf. auto 10.
    + split; [reflexivity|]. split; [assumption|]. split; [cbn in *; lia|].
      set (arr := arrivals 0 l) in *. cbn [length repeat] in *.
      assert (Lp : length past + S (length t) = length arr) by (rewrite <- Hl, Hf, app_length; cbn; rewrite repeat_length; lia).
      destruct (skipn (length past) arr) as [|a rest] eqn:Es.
      { apply (f_equal (@length _)) in Es. rewrite skipn_length in Es. cbn in Es. lia. }
      assert (Ea : arr = firstn (length past) arr ++ a :: rest) by (rewrite <- Es; symmetry; apply firstn_skipn).
      assert (Lf : length past = length (firstn (length past) arr)) by (rewrite firstn_length; lia).
      assert (Lr : length rest = length t).
      { apply (f_equal (@length _)) in Ea. rewrite app_length in Ea. cbn [length] in Ea. lia. }
      set (pre := firstn (length past) arr) in *.
      rewrite Hf, Ea in Hw, Hp, Hd. rewrite met_app in Hw, Hp, Hd by assumption.
      change (Waiting :: repeat Waiting (length t)) with (repeat Waiting (S (length t))) in Hw, Hp, Hd.
      rewrite met_repeat in Hw, Hp, Hd by (cbn; lia). cbn [fate_eqb] in Hw, Hp, Hd.
      rewrite met_none in Hw by assumption. cbn [app] in Hw. injection Hw as -> ->. rewrite app_nil_r in Hp, Hd.
      assert (Lp2 : length (past ++ [Played]) = length (pre ++ [a])) by (rewrite !app_length; cbn; lia).
      exists ((past ++ [Played]) ++ repeat Waiting (length rest)), (past ++ [Played]).
      split; [rewrite !app_length, repeat_length; cbn [length]; lia|].
      split; [reflexivity|].
      split; [intros Q; apply in_app_or in Q; destruct Q as [Q|[Q|[]]]; [contradiction|discriminate]|].
      rewrite Ea. replace (pre ++ a :: rest) with ((pre ++ [a]) ++ rest) by (rewrite <- app_assoc; reflexivity).
      rewrite !met_app by assumption. rewrite !met_repeat by reflexivity. cbn [fate_eqb]. rewrite !app_nil_r.
      split; [rewrite Hp; reflexivity|].
      split; [rewrite met_none by assumption; reflexivity|].
      rewrite Hd, ?app_length. cbn. rewrite ?app_nil_r. lia.
  - destruct C as (Co & Cb). rewrite Co, Cb. apply orb_false_iff in G. destruct G as [G _]. rewrite G.
    split; [reflexivity|]. split; [assumption|]. split; [assumption|].
    exists fates, past. change (handed_out [None]) with (@nil (jframe F)). rewrite !app_nil_r. cbn [length repeat] in Hf. rewrite ?app_nil_r in Hf. auto 10.
Qed.

Lemma inv_run l2 : forall l os b, jinv l os b ->
  jinv (l ++ l2) (os ++ fst (jb_run b l2)) (snd (jb_run b l2)).
Proof.
  induction l2 as [|[jc [d|]] t IH]; intros l os b H; cbn [jb_run].
  - cbn [fst snd]. now rewrite !app_nil_r.
  - unfold jb_step. cbn [snd fst]. pose proof (IH (l ++ [(jc, Some d)]) os _ (inv_push jc d l os b H)) as Q.
    rewrite <- app_assoc in Q. cbn [app] in Q. destruct (jb_run (jb_push jc d b) t). cbn [fst snd app] in *. exact Q.
  - unfold jb_step. cbn [snd fst]. pose proof (inv_pop jc l os b H) as P. destruct (jb_pop jc b) as [o b1]. cbn [fst snd] in P.
    pose proof (IH _ _ _ P) as Q. destruct (jb_run b1 t). cbn [fst snd] in *. rewrite <- !app_assoc in Q. exact Q.
Qed.

Lemma inv_new lat : jinv [] [] (jb_new lat).
Proof.
  unfold jinv, jb_new, JITTER_TARGET_MAX_FRAMES, JITTER_MIN_FRAMES, JITTER_BASE_FRAMES. cbn [jb_target jb_started jb_next_seq jb_frames jb_dropped arrivals length].
  split; [lia|]. repeat (split; [reflexivity || lia|]). exists [], []. repeat split; auto.
Qed.
Lemma inv_reach lat l : jinv l (fst (jb_run (jb_new lat) l)) (snd (jb_run (jb_new lat) l)).
Proof. apply (inv_run l [] [] (jb_new lat)). apply inv_new. Qed.

Lemma jitter_account lat l : let '(os, b) := jb_run (jb_new lat) l in
  length (jb_frames b) <= 24 /\
  exists fates past, length fates = length (arrivals 0 l) /\
    fates = past ++ repeat Waiting (length (jb_frames b)) /\ ~ In Waiting past /\
    handed_out os = met Played fates (arrivals 0 l) /\
    jb_frames b = met Waiting fates (arrivals 0 l) /\
    jb_dropped b = N.of_nat (length (met Dropped fates (arrivals 0 l))).
Proof. pose proof (inv_reach lat l) as (_ & _ & _ & H). destruct (jb_run (jb_new lat) l). exact H. Qed.

Lemma jitter_arrival lat l jc d : let '(os, b) := jb_run (jb_new lat) l in
  let x := mk_jframe (N.of_nat (length (arrivals 0 l))) d in
  jb_frames (jb_push jc d b) = (if length (jb_frames b) =? 24 then tl (jb_frames b) else jb_frames b) ++ [x].
Proof.
  pose proof (inv_reach lat l) as (T & _ & Nx & L & _). destruct (jb_run (jb_new lat) l) as [os b]. cbn [fst snd] in *.
  rewrite <- Nx. apply (push_frames jc d b (proj1 T) L).
Qed.

Lemma jitter_request lat l jc : let '(os, b) := jb_run (jb_new lat) l in
  2 <= jb_target b <= 14 /\
  (if running os || (jb_target b <=? length (jb_frames b)) then
     match jb_frames b with
     | f :: rest => fst (jb_pop jc b) = Some f /\ jb_frames (snd (jb_pop jc b)) = rest
     | [] => fst (jb_pop jc b) = None /\ jb_frames (snd (jb_pop jc b)) = []
     end
   else fst (jb_pop jc b) = None /\ jb_frames (snd (jb_pop jc b)) = jb_frames b).
Proof.
  pose proof (inv_reach lat l) as (T & R & _). destruct (jb_run (jb_new lat) l) as [os b]. cbn [fst snd] in *.
  destruct (pop_cases jc b T) as (_ & _ & _ & C). rewrite <- R. split; [exact T|].
  destruct (jb_started b || _); [destruct (jb_frames b); tauto|]. destruct C as [-> ->]. auto.
Qed.
End P.
