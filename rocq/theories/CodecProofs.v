(** Compositional round-trip reasoning for readers and writers. *)
From Verif Require Import Base BitsLib BitBuffer BitBufferProofs BitBufferOps Codec.
Open Scope N_scope.

(** [reads r l x]: whenever the bits at the cursor start with [l], [r] returns [x] and
    consumes exactly [l], whatever follows. *)
Definition reads {A} (r : reader A) (l : list bool) (x : A) : Prop :=
  forall b rest, wf b -> remaining b = l ++ rest -> r b = Ok (x, adv b (length l)).

(** A codec round-trips a value: the writer always succeeds when there is room, appends some bit
    string, and the reader maps exactly that bit string (followed by anything) back to the value. *)
Definition roundtrips {A} (w : wr) (r : reader A) (x : A) : Prop :=
  exists l, writes w l /\ reads r l x.

(** What a round-trip means operationally. *)
Lemma roundtrips_op {A} (w : wr) (r : reader A) (x : A) :
  roundtrips w r x ->
  exists n, forall b, wf b -> room b n ->
    exists b', w b = Ok b' /\ wf b' /\ bpos b' = (bpos b + n)%nat /\ bstart b' = bstart b /\
      written b' = written b ++ bits_rng (bytes b') (bpos b) n /\
      r (set_pos b' (bpos b)) = Ok (x, b').
Proof.
  intros (l & Hw & Hr). exists (length l). intros b W R.
  destruct (Hw b W R) as (b' & E & O). exists b'. split; [assumption|].
  pose proof O as (W1 & S1 & A1 & P1 & _).
  split; [assumption|]. split; [assumption|]. split; [assumption|].
  split; [rewrite (wrote_bits _ _ _ O); apply wrote_written; assumption|].
  destruct (wrote_remaining _ _ _ W O) as (W' & rest & HR).
  rewrite (Hr _ _ W' HR). do 2 f_equal. unfold adv, set_pos. cbn [bpos bytes bstart bend autoexp].
  rewrite <- P1. destruct b'; reflexivity.
Qed.

(** ** Writers *)
Lemma writes_ret : writes wret [].
Proof. intros b W _. exists b. split; [reflexivity|]. apply wrote_nil, W. Qed.

Lemma writes_then (w1 w2 : wr) l1 l2 : writes w1 l1 -> writes w2 l2 -> writes (w1 >> w2) (l1 ++ l2).
Proof. intros H1 H2. exact (writes_seq w1 w2 l1 l2 H1 H2). Qed.

Lemma writes_field v n : (n <= 64)%nat -> v < 2 ^ N.of_nat n -> writes (wfield v n) (bits_of n v).
Proof. apply writes_bits. Qed.

Lemma writes_flag x : writes (wflag x) [x].
Proof.
  intros b W R. unfold wflag. destruct (writes_bits (N.b2n x) 1) with (b := b) as (b' & E & O).
  - lia.
  - destruct x; reflexivity.
  - assumption.
  - exact R.
  - exists b'. rewrite bits_of_1_b2n in O. auto.
Qed.

Lemma writes_assert c : c = true -> writes (wassert c) [].
Proof. intros ->. apply writes_ret. Qed.
Lemma writes_guard c e : c = true -> writes (wguard c e) [].
Proof. intros ->. apply writes_ret. Qed.

Lemma writes_eq w l l' : writes w l -> l = l' -> writes w l'.
Proof. intros H <-. exact H. Qed.

(** ** Readers *)
Lemma reads_ret {A} (x : A) : reads (rret x) [] x.
Proof. intros b rest W _. unfold rret. cbn [length]. now rewrite adv_0. Qed.

Lemma reads_bind {A B} (r : reader A) (k : A -> reader B) l1 l2 x y :
  reads r l1 x -> reads (k x) l2 y -> reads (rbind r k) (l1 ++ l2) y.
Proof.
  intros H1 H2 b rest W E. unfold rbind. rewrite <- app_assoc in E.
  rewrite (H1 b (l2 ++ rest) W E). cbn [bind fst snd].
  rewrite (H2 _ rest).
  - rewrite adv_adv, app_length. reflexivity.
  - apply wf_adv; [assumption|]. rewrite E, app_length. lia.
  - rewrite remaining_adv by assumption. rewrite E.
    rewrite skipn_app, skipn_all, Nat.sub_diag. reflexivity.
Qed.

Lemma reads_field v n : (n <= 64)%nat -> v < 2 ^ N.of_nat n -> reads (rfield n) (bits_of n v) v.
Proof.
  intros Hn Hv b rest W E. unfold rfield. rewrite read_field_spec by assumption.
  rewrite E, app_length, bits_of_length. destruct (Nat.leb_spec n (n + length rest)); [|lia].
  rewrite firstn_app, bits_of_length, Nat.sub_diag. cbn [firstn]. rewrite app_nil_r.
  rewrite firstn_all2 by (rewrite bits_of_length; lia). now rewrite bits_val_of.
Qed.

Lemma reads_field_bits n l : length l = n -> (n <= 64)%nat -> reads (rfield n) l (bits_val l).
Proof.
  intros Hl Hn. rewrite <- (bits_of_val' l n Hl) at 1. apply reads_field; [assumption|].
  rewrite <- Hl. apply bits_val_bound.
Qed.

Lemma reads_field1 x : reads (rfield 1) [x] (N.b2n x).
Proof. rewrite <- bits_of_1_b2n. apply reads_field; [lia|]. destruct x; reflexivity. Qed.

Lemma reads_flag x : reads rflag [x] x.
Proof.
  unfold rflag. rewrite <- (app_nil_r [x]). eapply reads_bind; [apply reads_field1|].
  replace (N.b2n x =? 1) with x by (destruct x; reflexivity). apply reads_ret.
Qed.

Lemma reads_assert c : c = true -> reads (rassert c) [] tt.
Proof. intros ->. apply reads_ret. Qed.
Lemma reads_guard c e : c = true -> reads (rguard c e) [] tt.
Proof. intros ->. apply reads_ret. Qed.
Lemma reads_lift {A} (x : res A) a : x = Ok a -> reads (rlift x) [] a.
Proof. intros -> b rest W _. cbn. now rewrite adv_0. Qed.

Lemma reads_eq {A} (r : reader A) l l' x : reads r l x -> l = l' -> reads r l' x.
Proof. intros H <-. exact H. Qed.

(** Steps that consume nothing. *)
Lemma reads_bind0 {A B} (r : reader A) (k : A -> reader B) l x y :
  reads r [] x -> reads (k x) l y -> reads (rbind r k) l y.
Proof. intros H1 H2. apply (reads_bind r k [] l x y H1 H2). Qed.
Lemma writes_then0 (w1 w2 : wr) l : writes w1 [] -> writes w2 l -> writes (w1 >> w2) l.
Proof. intros H1 H2. apply (writes_then w1 w2 [] l H1 H2). Qed.
Lemma writes_then_r (w1 w2 : wr) l : writes w1 l -> writes w2 [] -> writes (w1 >> w2) l.
Proof. intros H1 H2. rewrite <- (app_nil_r l). apply (writes_then w1 w2 l [] H1 H2). Qed.

(** ** Absence of panics on arbitrary input *)

(** [rsafe r]: on every well-formed buffer [r] returns a value or an error; when it returns a
    value, the window and contents are unchanged and the cursor has only moved forward in it. *)
Definition rsafe {A} (r : reader A) : Prop :=
  forall b, wf b -> match r b with
                    | Ok (_, b') => exists n, b' = adv b n /\ (n <= length (remaining b))%nat
                    | Err _ => True
                    | Panic => False
                    end.

Lemma rsafe_ret {A} (x : A) : rsafe (rret x).
Proof. intros b W. exists 0%nat. rewrite adv_0. split; [reflexivity|lia]. Qed.
Lemma rsafe_err {A} e : rsafe (@rerr A e).
Proof. intros b W. exact I. Qed.
Lemma rsafe_bind {A B} (r : reader A) (k : A -> reader B) :
  rsafe r -> (forall x, rsafe (k x)) -> rsafe (rbind r k).
Proof.
  intros H1 H2 b W. unfold rbind. specialize (H1 b W). destruct (r b) as [[x b1]| |]; cbn [bind fst snd]; try exact H1.
  destruct H1 as (n & -> & Hn).
  specialize (H2 x (adv b n) (wf_adv _ _ W Hn)). destruct (k x (adv b n)) as [[y b2]| |]; try exact H2.
  destruct H2 as (m & -> & Hm). exists (n + m)%nat. rewrite adv_adv. split; [reflexivity|].
  rewrite remaining_adv, skipn_length in Hm by assumption. lia.
Qed.
Lemma rsafe_bind_post {A B} (P : A -> Prop) (r : reader A) (k : A -> reader B) :
  rsafe r -> (forall b x b', wf b -> r b = Ok (x, b') -> P x) -> (forall x, P x -> rsafe (k x)) -> rsafe (rbind r k).
Proof.
  intros H1 HP H2 b W. unfold rbind. specialize (H1 b W). destruct (r b) as [[x b1]| |] eqn:E; cbn [bind fst snd]; try exact H1.
  destruct H1 as (n & -> & Hn).
  specialize (H2 x (HP _ _ _ W E) (adv b n) (wf_adv _ _ W Hn)). destruct (k x (adv b n)) as [[y b2]| |]; try exact H2.
  destruct H2 as (m & -> & Hm). exists (n + m)%nat. rewrite adv_adv. split; [reflexivity|].
  rewrite remaining_adv, skipn_length in Hm by assumption. lia.
Qed.
Lemma rsafe_field n : (n <= 64)%nat -> rsafe (rfield n).
Proof.
  intros Hn b W. unfold rfield. rewrite read_field_spec by assumption.
  destruct (Nat.leb_spec n (length (remaining b))); [|exact I]. eauto.
Qed.
Lemma rfield_bound n b x b' : (n <= 64)%nat -> wf b -> rfield n b = Ok (x, b') -> x < 2 ^ N.of_nat n.
Proof.
  intros Hn W. unfold rfield. rewrite read_field_spec by assumption.
  destruct (Nat.leb_spec n (length (remaining b))); [|discriminate]. intros E. injection E as <- _.
  replace n with (length (firstn n (remaining b))) at 2 by (rewrite firstn_length; lia). apply bits_val_bound.
Qed.
Lemma rsafe_bind_field {B} n (k : N -> reader B) :
  (n <= 64)%nat -> (forall x, x < 2 ^ N.of_nat n -> rsafe (k x)) -> rsafe (rbind (rfield n) k).
Proof.
  intros Hn H. apply rsafe_bind_post with (P := fun x => x < 2 ^ N.of_nat n); [now apply rsafe_field| |assumption].
  intros b x b' W E. eapply rfield_bound; eassumption.
Qed.
Lemma rsafe_flag : rsafe rflag.
Proof. apply rsafe_bind; [apply rsafe_field; lia|intros; apply rsafe_ret]. Qed.
Lemma rsafe_guard c e : rsafe (rguard c e).
Proof. destruct c; [apply rsafe_ret|apply rsafe_err]. Qed.
Lemma rsafe_if {A} (c : bool) (r1 r2 : reader A) : rsafe r1 -> rsafe r2 -> rsafe (if c then r1 else r2).
Proof. destruct c; auto. Qed.
Lemma rsafe_ropt {A} c (r : reader A) : rsafe r -> rsafe (ropt c r).
Proof. intros H. unfold ropt. destruct c; [apply rsafe_bind; [assumption|intros; apply rsafe_ret]|apply rsafe_ret]. Qed.

(** ** Automation *)
Ltac pow2_side :=
  match goal with
  | |- ?v < 2 ^ N.of_nat ?n => let x := eval vm_compute in (2 ^ N.of_nat n) in change (2 ^ N.of_nat n) with x; (lia || assumption)
  | |- (_ <= _)%nat => lia
  end.
Ltac wstep :=
  first
    [ apply writes_ret
    | eapply writes_field; [lia|pow2_side]
    | apply writes_flag
    | apply writes_bit
    | apply writes_assert; reflexivity
    | apply writes_guard; reflexivity
    | eapply writes_then ].
Ltac rstep :=
  first
    [ apply reads_ret
    | eapply reads_field; [lia|pow2_side]
    | apply reads_flag
    | apply reads_field1
    | eapply reads_bind ].


(** ** Readers that look ahead: the continuation must satisfy [F] *)
Definition readsF {A} (F : list bool -> Prop) (r : reader A) (l : list bool) (x : A) : Prop :=
  forall b rest, wf b -> F rest -> remaining b = l ++ rest -> r b = Ok (x, adv b (length l)).

Lemma reads_readsF {A} F (r : reader A) l x : reads r l x -> readsF F r l x.
Proof. intros H b rest W _ E. exact (H b rest W E). Qed.
Lemma readsF_reads {A} (r : reader A) l x : readsF (fun _ => True) r l x -> reads r l x.
Proof. intros H b rest W E. exact (H b rest W I E). Qed.

Lemma readsF_bind {A B} (F1 F2 : list bool -> Prop) (r : reader A) (k : A -> reader B) l1 l2 x y :
  readsF F1 r l1 x -> readsF F2 (k x) l2 y -> (forall rest, F2 rest -> F1 (l2 ++ rest)) ->
  readsF F2 (rbind r k) (l1 ++ l2) y.
Proof.
  intros H1 H2 HF b rest W Hr E. unfold rbind. rewrite <- app_assoc in E.
  rewrite (H1 b (l2 ++ rest) W (HF _ Hr) E). cbn [bind fst snd].
  rewrite (H2 _ rest).
  - rewrite adv_adv, app_length. reflexivity.
  - apply wf_adv; [assumption|]. rewrite E, app_length. lia.
  - assumption.
  - rewrite remaining_adv by assumption. rewrite E.
    rewrite skipn_app, skipn_all, Nat.sub_diag. reflexivity.
Qed.
(** The first reader does not look ahead. *)
Lemma readsF_bind' {A B} (F : list bool -> Prop) (r : reader A) (k : A -> reader B) l1 l2 x y :
  reads r l1 x -> readsF F (k x) l2 y -> readsF F (rbind r k) (l1 ++ l2) y.
Proof. intros H1 H2. exact (readsF_bind (fun _ => True) F r k l1 l2 x y (reads_readsF _ r l1 x H1) H2 (fun _ _ => I)). Qed.

(** ** Overwriting a previously written stretch (length back-filling) *)
Lemma wrote_patch b b1 b2 p x y s :
  wf b -> wrote b b1 (p ++ x ++ s) -> length y = length x ->
  wrote (set_pos b1 (bpos b + length p)) b2 y ->
  wrote b (set_pos b2 (bpos b1)) (p ++ y ++ s).
Proof.
  intros W (W1 & S1 & A1 & P1 & L1 & B1 & E1 & F1 & G1) HL (W2 & S2 & A2 & P2 & L2 & B2 & E2 & F2 & G2).
  cbn [set_pos bytes bstart bpos bend autoexp] in *. rewrite !app_length in *.
  pose proof W1 as (W1a & W1b & W1c & W1d). pose proof W2 as (W2a & W2b & W2c & W2d).
  destruct F2 as (F2a & F2b); [lia|].
  unfold wrote. cbn [set_pos bytes bstart bpos bend autoexp]. rewrite !app_length.
  split.
  { unfold wf, cap in *. cbn [set_pos bytes bstart bpos bend autoexp]. repeat split; try lia; assumption. }
  split; [congruence|]. split; [congruence|]. split; [lia|]. split; [lia|].
  split.
  { intros i. rewrite B2, B1.
    destruct ((bpos b <=? i) && (i <? bpos b + (length p + (length y + length s))))%nat eqn:C1.
    - destruct ((bpos b + length p <=? i) && (i <? bpos b + length p + length y))%nat eqn:C2.
      + rewrite app_nth2 by lia. rewrite app_nth1 by lia. f_equal. lia.
      + destruct ((bpos b <=? i) && (i <? bpos b + (length p + (length x + length s))))%nat eqn:C3; [|lia].
        destruct (Nat.ltb_spec (i - bpos b) (length p)).
        * rewrite !app_nth1 by lia. reflexivity.
        * rewrite !(app_nth2 p) by lia. rewrite !app_nth2 by lia. f_equal. lia.
    - destruct ((bpos b + length p <=? i) && (i <? bpos b + length p + length y))%nat eqn:C2; [lia|].
      destruct ((bpos b <=? i) && (i <? bpos b + (length p + (length x + length s))))%nat eqn:C3; [lia|].
      reflexivity. }
  split; [lia|]. split.
  - intros H. destruct F1 as (F1a & F1b); [lia|]. split; lia.
  - intros H. specialize (G1 H). lia.
Qed.

Lemma writes_op (w : wr) l b : writes w l -> wf b -> room b (length l) -> exists b', w b = Ok b' /\ wrote b b' l.
Proof. intros H. apply H. Qed.

Lemma rsafe_not_panic {A} (r : reader A) b : rsafe r -> wf b -> r b <> Panic.
Proof. intros H W E. specialize (H b W). rewrite E in H. exact H. Qed.
