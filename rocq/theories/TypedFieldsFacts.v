(** Property-level facts about PDU bodies made of optional elements, and exact panic conditions. *)
From Verif Require Import Base BitsLib BitBuffer BitBufferProofs BitBufferOps Codec CodecProofs TypedFields TypedFieldsProofs.
Open Scope N_scope.

(** A small specification of a PDU body: a list of type 2 elements followed by a list of
    type 3 / type 4 elements, closed by an m-bit 0 (what each PDU's from_bitbuf/to_bitbuf does
    around the calls in typed_pdu_fields.rs).  Structured elements have values in [V]. *)
Inductive field2 (V : Type) := F2g (n : nat) | F2s (w : V -> wr) (r : reader V).
Inductive val2 (V : Type) := V2g (o : option N) | V2s (o : option V).
Inductive field34 (V : Type) := F3g (id : N) | F3s (id : N) (w : V -> wr) (r : reader V) | F4s (id : N) (w : V -> wr) (r : reader V).
Inductive val34 (V : Type) := V3g (o : option type3_generic) | V3s (o : option V) | V4s (o : option (list V)).
Arguments F2g {V}. Arguments F2s {V}. Arguments V2g {V}. Arguments V2s {V}.
Arguments F3g {V}. Arguments F3s {V}. Arguments F4s {V}. Arguments V3g {V}. Arguments V3s {V}. Arguments V4s {V}.

Section Body.
Context {V : Type}.

Definition f34_id (f : field34 V) : N := match f with F3g id | F3s id _ _ | F4s id _ _ => id end.

Definition write2 (obit : bool) (f : field2 V) (v : val2 V) : wr :=
  match f, v with
  | F2g n, V2g o => write_type2_generic obit o n
  | F2s w _, V2s o => write_type2_struct obit o w
  | _, _ => werr EInvalidValue
  end.
Definition parse2 (obit : bool) (f : field2 V) : reader (val2 V) :=
  match f with
  | F2g n => o <~ parse_type2_generic obit n ;; rret (V2g o)
  | F2s _ r => o <~ parse_type2_struct obit r ;; rret (V2s o)
  end.
Definition write34 (obit : bool) (f : field34 V) (v : val34 V) : wr :=
  match f, v with
  | F3g id, V3g o => write_type3_generic obit o id
  | F3s id w _, V3s o => write_type3_struct obit o id w
  | F4s id w _, V4s o => write_type4_struct obit o id w
  | _, _ => werr EInvalidValue
  end.
Definition parse34 (obit : bool) (f : field34 V) : reader (val34 V) :=
  match f with
  | F3g id => o <~ parse_type3_generic obit id ;; rret (V3g o)
  | F3s id _ r => o <~ parse_type3_struct obit id r ;; rret (V3s o)
  | F4s id _ r => o <~ parse_type4_struct obit id r ;; rret (V4s o)
  end.

Fixpoint write2s (obit : bool) (fs : list (field2 V)) (vs : list (val2 V)) : wr :=
  match fs, vs with
  | f :: fs', v :: vs' => write2 obit f v >> write2s obit fs' vs'
  | _, _ => wret
  end.
Fixpoint parse2s (obit : bool) (fs : list (field2 V)) : reader (list (val2 V)) :=
  match fs with
  | [] => rret []
  | f :: fs' => v <~ parse2 obit f ;; vs <~ parse2s obit fs' ;; rret (v :: vs)
  end.
Fixpoint write34s (obit : bool) (fs : list (field34 V)) (vs : list (val34 V)) : wr :=
  match fs, vs with
  | f :: fs', v :: vs' => write34 obit f v >> write34s obit fs' vs'
  | _, _ => wret
  end.
Fixpoint parse34s (obit : bool) (fs : list (field34 V)) : reader (list (val34 V)) :=
  match fs with
  | [] => rret []
  | f :: fs' => v <~ parse34 obit f ;; vs <~ parse34s obit fs' ;; rret (v :: vs)
  end.

(** The whole body: o-bit, type 2 elements, type 3/4 elements, trailing m-bit. *)
Definition write_body (obit : bool) (f2 : list (field2 V)) (f34 : list (field34 V)) (v2 : list (val2 V)) (v34 : list (val34 V)) : wr :=
  write_obit (N.b2n obit) >>
  (if obit then write2s true f2 v2 >> write34s true f34 v34 >> write_mbit 0 else wret).
Definition parse_body (f2 : list (field2 V)) (f34 : list (field34 V)) : reader (list (val2 V) * list (val34 V)) :=
  obit <~ read_obit ;;
  v2 <~ parse2s obit f2 ;;
  v34 <~ parse34s obit f34 ;;
  if obit then (m <~ read_mbit ;; rguard (negb m) EInvalidTrailingMbitValue ;~ rret (v2, v34))
  else rret (v2, v34).

(** Values within the limits of the wire format. *)
Definition ok2 (f : field2 V) (v : val2 V) : Prop :=
  match f, v with
  | F2g n, V2g o => (n <= 64)%nat /\ forall x, o = Some x -> x < 2 ^ N.of_nat n
  | F2s w r, V2s o => forall x, o = Some x -> roundtrips (w x) r x
  | _, _ => False
  end.
Definition ok34 (f : field34 V) (v : val34 V) : Prop :=
  f34_id f < 16 /\
  match f, v with
  | F3g id, V3g o => forall e, o = Some e -> t3_id e = id /\ (t3_len e <= 64)%nat /\ t3_data e < 2 ^ N.of_nat (t3_len e)
  | F3s id w r, V3s o => forall x, o = Some x -> exists l, writes (w x) l /\ reads r l x /\ (length l < 2048)%nat
  | F4s id w r, V4s o => forall xs, o = Some xs ->
      exists ls, Forall2 (fun x l => writes (w x) l /\ reads r l x) xs ls /\
                 (6 + length (concat ls) < 2048)%nat /\ (length xs < 64)%nat
  | _, _ => False
  end.
Definition absent2 (v : val2 V) : bool := match v with V2g o => is_none o | V2s o => is_none o end.
Definition absent34 (v : val34 V) : bool := match v with V3g o => is_none o | V3s o => is_none o | V4s o => is_none o end.

Lemma body2 f v : ok2 f v -> exists l, writes (write2 true f v) l /\ reads (parse2 true f) l v.
Proof.
  destruct f as [n|w r], v as [o|o]; cbn [ok2]; try tauto; intros H; cbn [write2 parse2].
  - destruct H as (Hn & Hx). destruct o as [x|].
    + destruct (type2_generic_present true x n eq_refl Hn (Hx x eq_refl)) as (A & B).
      eexists. split; [exact A|]. rewrite <- (app_nil_r (true :: _)). eapply reads_bind; [exact B|apply reads_ret].
    + destruct (type2_generic_absent true n eq_refl) as (A & B).
      eexists. split; [exact A|]. rewrite <- (app_nil_r [false]). eapply reads_bind; [exact B|apply reads_ret].
  - destruct o as [x|].
    + destruct (H x eq_refl) as (l & Hw & Hr). destruct (type2_struct_present true w r x l eq_refl Hw Hr) as (A & B).
      eexists. split; [exact A|]. rewrite <- (app_nil_r (true :: _)). eapply reads_bind; [exact B|apply reads_ret].
    + destruct (type2_struct_absent true w r eq_refl) as (A & B).
      eexists. split; [exact A|]. rewrite <- (app_nil_r [false]). eapply reads_bind; [exact B|apply reads_ret].
Qed.

Lemma body2s fs vs : Forall2 ok2 fs vs -> exists l, writes (write2s true fs vs) l /\ reads (parse2s true fs) l vs.
Proof.
  induction 1 as [|f v fs vs H _ (l2 & W2 & R2)]; cbn [write2s parse2s].
  - exists []. split; [apply writes_ret|apply reads_ret].
  - destruct (body2 _ _ H) as (l1 & W1 & R1). exists (l1 ++ l2 ++ []). split.
    + rewrite app_nil_r. now apply writes_then.
    + eapply reads_bind; [exact R1|]. eapply reads_bind; [exact R2|apply reads_ret].
Qed.

(** One type 3/4 element: either absent and nothing written, or present as an element bit string. *)
Definition elem_bits (id : N) (l : list bool) : Prop :=
  (exists c, l = type3_bits id c) \/ (exists n c, l = type4_bits id n c).

Lemma no_elem_elem id id' l rest : id' < 16 -> id <> id' -> elem_bits id' l -> no_elem id (l ++ rest).
Proof. intros H1 H2 [(c & ->)|(n & c & ->)]; [now apply no_elem_type3|now apply no_elem_type4]. Qed.

Lemma Forall2_split {A B} (P Q : A -> B -> Prop) xs ys :
  Forall2 (fun a b => P a b /\ Q a b) xs ys -> Forall2 P xs ys /\ Forall2 Q xs ys.
Proof. induction 1 as [|? ? ? ? (? & ?) _ (? & ?)]; split; constructor; auto. Qed.

Lemma body34 f v : ok34 f v ->
  exists l, writes (write34 true f v) l /\ readsF (no_elem (f34_id f)) (parse34 true f) l v /\
            (l = [] \/ elem_bits (f34_id f) l).
Proof.
  destruct f as [id|id w r|id w r], v as [o|o|o]; unfold ok34; cbn [f34_id]; try tauto; intros (Hid & H); cbn [write34 parse34].
  - destruct o as [e|].
    + destruct (H e eq_refl) as (He & Hl & Hd). destruct (type3_generic_present e id Hid Hl Hd He) as (A & B).
      eexists. split; [exact A|]. split; [|right; left; eauto].
      apply reads_readsF. rewrite <- (app_nil_r (type3_bits _ _)). eapply reads_bind; [exact B|apply reads_ret].
    + exists []. split; [apply writes_ret|]. split; [|auto].
      apply (readsF_bind (no_elem id) (no_elem id) _ _ [] [] None); [apply parse_type3_generic_absent|apply reads_readsF, reads_ret|auto].
  - destruct o as [x|].
    + destruct (H x eq_refl) as (l & Hw & Hr & Hl). exists (type3_bits id l).
      split; [apply write_type3_struct_spec; [assumption|lia|assumption]|]. split; [|right; left; eauto].
      apply reads_readsF. rewrite <- (app_nil_r (type3_bits _ _)). eapply reads_bind; [apply parse_type3_struct_spec; [assumption|lia|exact Hr]|apply reads_ret].
    + exists []. split; [apply writes_ret|]. split; [|auto].
      apply (readsF_bind (no_elem id) (no_elem id) _ _ [] [] None); [apply parse_type3_absent|apply reads_readsF, reads_ret|auto].
  - destruct o as [xs|].
    + destruct (H xs eq_refl) as (ls & HF & Hl & Hn). apply Forall2_split in HF as (HW & HR).
      exists (type4_bits id (length xs) (concat ls)).
      split; [apply write_type4_struct_spec; try lia; assumption|]. split; [|right; right; eauto].
      apply reads_readsF. rewrite <- (app_nil_r (type4_bits _ _ _)). eapply reads_bind; [apply parse_type4_struct_spec; try lia; eassumption|apply reads_ret].
    + exists []. split; [apply writes_ret|]. split; [|auto].
      apply (readsF_bind (no_elem id) (no_elem id) _ _ [] [] None); [apply parse_type4_absent|apply reads_readsF, reads_ret|auto].
Qed.

(** What follows after the element list: the closing m-bit. *)
Definition stop (rest : list bool) : Prop := exists t, rest = false :: t.

Lemma body34s fs vs :
  NoDup (map f34_id fs) -> Forall2 ok34 fs vs ->
  exists l, writes (write34s true fs vs) l /\ readsF stop (parse34s true fs) l vs /\
            forall id rest, ~ In id (map f34_id fs) -> stop rest -> no_elem id (l ++ rest).
Proof.
  intros ND H. revert ND. induction H as [|f v fs vs H _ IH]; intros ND; cbn [write34s parse34s map].
  - exists []. split; [apply writes_ret|]. split; [apply reads_readsF, reads_ret|].
    intros id rest _ (t & ->). exact I.
  - inversion ND as [|? ? Hnin ND']; subst. destruct (IH ND') as (l2 & W2 & R2 & N2).
    destruct (body34 _ _ H) as (l1 & W1 & R1 & E1). exists (l1 ++ l2 ++ []). split; [|split].
    + rewrite app_nil_r. now apply writes_then.
    + eapply readsF_bind; [exact R1| |].
      * eapply readsF_bind; [exact R2|apply reads_readsF, reads_ret|]. intros rest Hr. exact Hr.
      * intros rest Hr. rewrite app_nil_r. apply N2; assumption.
    + intros id rest Hid Hs. rewrite app_nil_r, <- app_assoc. destruct E1 as [->|E1].
      * apply N2; [|assumption]. cbn [In] in Hid. tauto.
      * apply no_elem_elem with (id' := f34_id f); [apply H| |assumption]. cbn [In] in Hid. intuition congruence.
Qed.

Lemma parse2s_false fs vs b : Forall2 ok2 fs vs -> Forall (fun v => absent2 v = true) vs -> parse2s false fs b = Ok (vs, b).
Proof.
  intros H. induction H as [|f v fs vs H _ IH]; intros HA; [reflexivity|]. inversion HA; subst.
  cbn [parse2s]. unfold rbind at 1.
  destruct f as [n|w r], v as [o|o]; cbn [ok2] in H; try tauto; destruct o; try discriminate; cbn [parse2];
    unfold rbind at 1; cbn; unfold rbind; rewrite IH by assumption; reflexivity.
Qed.
Lemma parse34s_false fs vs b : Forall2 ok34 fs vs -> Forall (fun v => absent34 v = true) vs -> parse34s false fs b = Ok (vs, b).
Proof.
  intros H. induction H as [|f v fs vs H _ IH]; intros HA; [reflexivity|]. inversion HA; subst.
  cbn [parse34s]. unfold rbind at 1. destruct H as (_ & H).
  destruct f as [id|id w r|id w r], v as [o|o|o]; try tauto; destruct o; try discriminate; cbn [parse34];
    unfold rbind at 1; cbn; unfold rbind; rewrite IH by assumption; reflexivity.
Qed.

Lemma body_roundtrip obit f2 f34 v2 v34 :
  Forall2 ok2 f2 v2 -> Forall2 ok34 f34 v34 -> NoDup (map f34_id f34) ->
  (obit = false -> Forall (fun v => absent2 v = true) v2 /\ Forall (fun v => absent34 v = true) v34) ->
  roundtrips (write_body obit f2 f34 v2 v34) (parse_body f2 f34) (v2, v34).
Proof.
  intros H2 H34 ND HO. destruct obit.
  - destruct (body2s _ _ H2) as (l2 & W2 & R2). destruct (body34s _ _ ND H34) as (l3 & W3 & R3 & _).
    exists ([true] ++ l2 ++ l3 ++ [false]). split.
    + unfold write_body. apply writes_then; [apply (writes_bit true)|]. apply writes_then; [exact W2|].
      apply writes_then; [exact W3|apply (writes_bit false)].
    + unfold parse_body. eapply reads_bind; [apply reads_flag|]. eapply reads_bind; [exact R2|].
      apply readsF_reads. eapply readsF_bind; [exact R3| |].
      * apply reads_readsF. change ([false]) with ([false] ++ @nil bool). eapply reads_bind; [apply (reads_flag false)|].
        apply reads_bind0 with (x := tt); [apply reads_ret|apply reads_ret].
      * intros rest _. exists rest. reflexivity.
  - destruct (HO eq_refl) as (A2 & A34). exists ([false] ++ []). split.
    + apply writes_then; [apply (writes_bit false)|apply writes_ret].
    + unfold parse_body. eapply reads_bind; [apply reads_flag|].
      intros b rest W _. unfold rbind. rewrite (parse2s_false _ _ _ H2 A2). cbn [bind fst snd].
      rewrite (parse34s_false _ _ _ H34 A34). cbn [bind fst snd length]. rewrite adv_0. reflexivity.
Qed.
End Body.

(** ** Exact panic conditions of the length-driven parsers *)

(** An element header with identifier [id] and length field [len] at the cursor, [k] bits after it. *)
Definition at_elem (b : bitbuf) (id len : N) (k : nat) : Prop :=
  exists rest, remaining b = true :: bits_of 4 id ++ bits_of 11 len ++ rest /\ length rest = k.

(** Decompose the outcome of peek + seek(5) + read(11). *)
Lemma elem_cases {A} id (f : N -> reader A) (none : reader A) b :
  wf b -> id < 16 ->
  let r := (present <~ peek_type34_mbit_and_id id ;; if negb present then none else
            rseek_rel 5 ;~ rbind (rfield 11) f) in
  (r b = none b) \/ (exists e, r b = Err e) \/
  (exists len k, len < 2048 /\ at_elem b id len k /\ wf (adv b 16) /\ length (remaining (adv b 16)) = k /\
                 remaining (adv b 16) = skipn 16 (remaining b) /\ r b = f len (adv b 16)).
Proof.
  intros W Hid r. remember (r b) as out eqn:HO. unfold r, rbind at 1 in HO. clear r.
  pose proof (rsafe_peek id b W) as HP.
  destruct (peek_type34_mbit_and_id id b) as [[[|] b']|e|] eqn:E; cbn [bind fst snd negb] in HO; [| |right; left; eauto|tauto].
  - destruct (peek_present_len _ _ _ W E) as (-> & H5). unfold rbind, rseek_rel in HO.
    rewrite (seek_rel_adv b 5 W H5 : seek_rel 5 b = _) in HO. cbn [bind fst snd] in HO.
    pose proof (wf_adv _ _ W H5) as W5. unfold rfield in HO. rewrite read_field_spec in HO by (assumption || lia).
    rewrite remaining_adv, skipn_length in HO by assumption.
    destruct (Nat.leb_spec 11 (length (remaining b) - 5)); [|right; left; eauto]. right. right.
    cbn [bind fst snd] in HO. rewrite adv_adv in HO. change (5 + 11)%nat with 16%nat in HO.
    exists (bits_val (firstn 11 (skipn 5 (remaining b)))), (length (remaining b) - 16)%nat.
    assert (wf (adv b 16)) as W16 by (apply wf_adv; [assumption|lia]).
    split; [|split; [|split; [assumption|split; [|split; [now rewrite remaining_adv|exact HO]]]]].
    + pose proof (bits_val_bound (firstn 11 (skipn 5 (remaining b)))) as HB.
      rewrite firstn_length, skipn_length in HB. replace (Nat.min 11 (length (remaining b) - 5)) with 11%nat in HB by lia. exact HB.
    + exists (skipn 16 (remaining b)). split; [|now rewrite skipn_length].
      (* the peek succeeded, so the first five bits are as expected *)
      unfold peek_type34_mbit_and_id in E. rewrite peek_bits_spec in E by (assumption || lia). cbn [bind] in E.
      destruct (Nat.leb_spec 1 (length (remaining b))); [|discriminate].
      destruct (remaining b) as [|x t] eqn:ER; [cbn in *; lia|]. cbn [firstn] in E.
      destruct x; [|discriminate]. change (bits_val [true]) with 1 in E. cbn [N.eqb] in E.
      rewrite (peek_posoffset_spec b 1 4 W) in E by lia. rewrite ER in E. cbn [bind] in E.
      destruct (_ <=? _)%nat; [|discriminate]. change (skipn 1 (true :: t)) with t in E. assert ((bits_val (firstn 4 t) =? id) = true) as E' by (destruct (bits_val (firstn 4 t) =? id); [reflexivity|discriminate E]). apply N.eqb_eq in E'.
      f_equal. cbn [length] in *. subst id. change (skipn 5 (true :: t)) with (skipn 4 t). change (skipn 16 (true :: t)) with (skipn 15 t).
      rewrite bits_of_val' by (rewrite firstn_length; lia).
      rewrite (bits_of_val' _ 11) by (rewrite firstn_length, skipn_length; lia).
      rewrite <- (firstn_skipn 4 t) at 1. f_equal.
      rewrite <- (firstn_skipn 11 (skipn 4 t)) at 1. f_equal.
      rewrite skipn_skipn'. reflexivity.
    + rewrite remaining_length. rewrite remaining_length in H. rewrite remaining_length. unfold adv. cbn [set_pos bpos bend]. lia.
  - destruct HP as (n & -> & Hn). left. rewrite HO. f_equal. clear HO.
    unfold peek_type34_mbit_and_id in E. rewrite peek_bits_spec in E by (assumption || lia). cbn [bind] in E.
    destruct (1 <=? _)%nat; [|discriminate]. destruct (_ =? 0); [congruence|]. destruct (_ =? 1); [|discriminate].
    rewrite (peek_posoffset_spec b 1 4 W) in E by lia. cbn [bind] in E. destruct (_ <=? _)%nat; [|discriminate]. congruence.
Qed.

Lemma at_elem_reads {A} b id len k (f : N -> reader A) (none : reader A) :
  wf b -> id < 16 -> len < 2048 -> at_elem b id len k ->
  wf (adv b 16) /\ length (remaining (adv b 16)) = k /\
  (present <~ peek_type34_mbit_and_id id ;; if negb present then none else
            rseek_rel 5 ;~ rbind (rfield 11) f) b = f len (adv b 16).
Proof.
  intros W Hid Hlen (rest & ER & Hk).
  assert (length (remaining b) = 16 + k)%nat as HL by (rewrite ER; cbn [length]; rewrite !app_length, !bits_of_length; lia).
  split; [apply wf_adv; [assumption|lia]|]. split; [rewrite remaining_adv, skipn_length by assumption; lia|].
  unfold rbind at 1. rewrite (peek_elem b id W _ Hid ER). cbn [bind fst snd negb].
  unfold rbind, rseek_rel. rewrite (seek_rel_adv b 5 W ltac:(lia) : seek_rel 5 b = _). cbn [bind fst snd].
  rewrite (reads_field len 11 ltac:(lia) Hlen (adv b 5) rest).
  - cbn [bind fst snd]. rewrite bits_of_length, adv_adv. reflexivity.
  - apply wf_adv; [assumption|lia].
  - rewrite remaining_adv, ER by assumption. reflexivity.
Qed.

(** Length-driven skip of a placeholder element. *)
Lemma generic_body_panic {A} (len : nat) (g : N -> A) b :
  wf b ->
  ((data <~ rfield (if (64 <? len)%nat then 64 else len) ;;
   (if (64 <? len)%nat then rseek_rel (Z.of_nat len - 64) else rret tt) ;~ rret (g data)) b = Panic
   <-> (64 <= length (remaining b) < len)%nat).
Proof.
  intros W. unfold rbind. destruct (Nat.ltb_spec 64 len) as [H|H].
  - unfold rfield. rewrite read_field_spec by (assumption || lia).
    destruct (Nat.leb_spec 64 (length (remaining b))) as [H2|H2]; cbn [bind fst snd]; [|split; [discriminate|lia]].
    unfold rseek_rel. replace (Z.of_nat len - 64)%Z with (Z.of_nat (len - 64)) by lia.
    assert (wf (adv b 64)) as W' by (apply wf_adv; [assumption|lia]).
    assert (length (remaining (adv b 64)) = length (remaining b) - 64)%nat as HL by (rewrite remaining_adv, skipn_length by assumption; lia).
    destruct (Nat.leb_spec len (length (remaining b))).
    + rewrite seek_rel_adv by (try assumption; lia). cbn [bind fst snd]. unfold rret. split; [discriminate|lia].
    + rewrite seek_rel_too_far by (try assumption; lia). cbn [bind]. split; [lia|reflexivity].
  - unfold rfield. rewrite read_field_spec by (assumption || lia).
    destruct (Nat.leb_spec len (length (remaining b))) as [H2|H2]; cbn [bind fst snd]; unfold rret; (split; [discriminate|lia]).
Qed.

Lemma type3_generic_panics_iff b id :
  wf b -> id < 16 ->
  (parse_type3_generic true id b = Panic <->
   exists len k, len < 2048 /\ at_elem b id len k /\ (64 <= k < N.to_nat len)%nat).
Proof.
  intros W Hid. unfold parse_type3_generic. cbn [negb].
  set (f := fun len_n : N => _ : reader (option type3_generic)).
  split.
  - intros HP. destruct (elem_cases id f (rret None) b W Hid) as [H|[(e & H)|(len & k & Hl & HA & W16 & Hk & _ & H)]]; cbn zeta in H; rewrite HP in H; try discriminate.
    symmetry in H. unfold f in H. cbv zeta in H. apply generic_body_panic in H; [|assumption]. exists len, k. split; [assumption|]. split; [assumption|]. lia.
  - intros (len & k & Hl & HA & Hk). destruct (at_elem_reads b id len k f (rret None) W Hid Hl HA) as (W16 & HL & ->).
    unfold f. cbv zeta. apply generic_body_panic; [assumption|]. lia.
Qed.

(** Tail of [parse_type4_header] after the length field. *)
Lemma type4_tail_cases {A} (len : N) (f : nat * nat -> reader A) b :
  wf b ->
  let r := (num_elems <~ rfield 6 ;; data_len <~ rlift (sub_checked (N.to_nat len) 6) ;; f (N.to_nat num_elems, data_len)) in
  ((length (remaining b) < 6)%nat /\ r b = Err EBufferEnded) \/
  ((6 <= length (remaining b))%nat /\ (len < 6) /\ r b = Panic) \/
  ((6 <= length (remaining b))%nat /\ (6 <= len) /\ exists n, r b = f (n, N.to_nat len - 6)%nat (adv b 6)).
Proof.
  intros W r. unfold r, rbind, rfield. rewrite read_field_spec by (assumption || lia).
  destruct (Nat.leb_spec 6 (length (remaining b))) as [H|H]; cbn [bind fst snd]; [|left; auto]. right.
  unfold rlift, sub_checked. destruct (Nat.leb_spec 6 (N.to_nat len)) as [H2|H2]; cbn [bind fst snd].
  - right. split; [lia|]. split; [lia|]. eauto.
  - left. split; [lia|]. split; [lia|]. reflexivity.
Qed.

Lemma type4_header_bind {A} id (f : option (nat * nat) -> reader A) b :
  (h <~ parse_type4_header id ;; f h) b =
  (present <~ peek_type34_mbit_and_id id ;; if negb present then f None else
   rseek_rel 5 ;~ len_n <~ rfield 11 ;; num_elems <~ rfield 6 ;;
   data_len <~ rlift (sub_checked (N.to_nat len_n) 6) ;; f (Some (N.to_nat num_elems, data_len))) b.
Proof.
  unfold parse_type4_header, rbind. destruct (peek_type34_mbit_and_id id b) as [[[|] b1]| |]; cbn [bind fst snd negb]; try reflexivity.
  destruct (rseek_rel 5 b1) as [[? b2]| |]; cbn [bind fst snd]; try reflexivity.
  destruct (rfield 11 b2) as [[? b3]| |]; cbn [bind fst snd]; try reflexivity.
  destruct (rfield 6 b3) as [[? b4]| |]; cbn [bind fst snd]; try reflexivity.
  unfold rlift. destruct (sub_checked _ _); reflexivity.
Qed.

Lemma type4_struct_panics_iff {T} b id (p : reader T) :
  wf b -> id < 16 -> rsafe p ->
  (parse_type4_struct true id p b = Panic <->
   exists len k, len < 6 /\ at_elem b id len k /\ (6 <= k)%nat).
Proof.
  intros W Hid Hp. unfold parse_type4_struct. cbn [negb]. rewrite type4_header_bind. cbv beta iota.
  set (f := fun len_n : N => _ : reader (option (list T))).
  set (g := fun h : nat * nat => let (num_elems, len_bits) := h in
     (start_pos <~ rget_pos ;; elems <~ parse_elems num_elems p ;; pos <~ rget_pos ;;
      if negb (start_pos + len_bits =? pos)%nat then rassert (start_pos <=? pos)%nat ;~ rerr EInconsistentLength
      else rret (Some elems))).
  assert (forall len b', wf b' -> f len b' = Panic <-> (6 <= length (remaining b'))%nat /\ len < 6) as Hf.
  { intros len b' W'. unfold f.
    destruct (type4_tail_cases len g b' W') as [(H1 & H2)|[(H1 & H2 & H3)|(H1 & H2 & n & H3)]]; cbn zeta in *.
    - change (f len b' = Err EBufferEnded) in H2. unfold f in H2. rewrite H2. split; [discriminate|lia].
    - change (f len b' = Panic) in H3. unfold f in H3. rewrite H3. split; [lia|reflexivity].
    - change (f len b' = g (n, (N.to_nat len - 6)%nat) (adv b' 6)) in H3. unfold f in H3. rewrite H3. split; [|lia].
      intros HP. exfalso.
      exact (rsafe_not_panic _ _ (rsafe_between (parse_elems n p) (fun s q => negb (s + (N.to_nat len - 6) =? q)%nat) (@Some (list T)) (rsafe_elems n p Hp)) (wf_adv _ _ W' H1) HP). }
  split.
  - intros HP. destruct (elem_cases id f (rret None) b W Hid) as [H|[(e & H)|(len & k & Hl & HA & W16 & Hk & _ & H)]]; cbn zeta in H; rewrite HP in H; try discriminate.
    symmetry in H. apply Hf in H; [|assumption]. exists len, k. split; [tauto|]. split; [assumption|]. lia.
  - intros (len & k & Hl & HA & Hk). destruct (at_elem_reads b id len k f (rret None) W Hid ltac:(lia) HA) as (W16 & HL & ->).
    apply Hf; [assumption|]. lia.
Qed.

Lemma type4_generic_panics_iff b id :
  wf b -> id < 16 ->
  (parse_type4_generic true id b = Panic <->
   exists len k, len < 2048 /\ at_elem b id len k /\ (6 <= k)%nat /\
     (len < 6 \/ (70 <= k < N.to_nat len)%nat)).
Proof.
  intros W Hid. unfold parse_type4_generic. cbn [negb]. rewrite type4_header_bind. cbv beta iota.
  set (f := fun len_n : N => _ : reader (option type4_generic)).
  set (g := fun h : nat * nat => let (num_elems, len_bits) := h in
      let read_bits := (if 64 <? len_bits then 64 else len_bits)%nat in
      (val <~ rfield read_bits ;;
      (if (64 <? len_bits)%nat then rseek_rel (Z.of_nat len_bits - 64) else rret tt) ;~
      rret (Some (mk_t4g id len_bits num_elems val)))).
  assert (forall len b', wf b' -> f len b' = Panic <-> (6 <= length (remaining b'))%nat /\ (len < 6 \/ (70 <= length (remaining b') < N.to_nat len)%nat)) as Hf.
  { intros len b' W'. unfold f.
    destruct (type4_tail_cases len g b' W') as [(H1 & H2)|[(H1 & H2 & H3)|(H1 & H2 & n & H3)]]; cbn zeta in *.
    - change (f len b' = Err EBufferEnded) in H2. unfold f in H2. rewrite H2. split; [discriminate|lia].
    - change (f len b' = Panic) in H3. unfold f in H3. rewrite H3. split; [lia|reflexivity].
    - change (f len b' = g (n, (N.to_nat len - 6)%nat) (adv b' 6)) in H3. unfold f in H3. rewrite H3. unfold g. cbv zeta.
      rewrite generic_body_panic by (apply wf_adv; assumption).
      rewrite remaining_adv, skipn_length by assumption. lia. }
  split.
  - intros HP. destruct (elem_cases id f (rret None) b W Hid) as [H|[(e & H)|(len & k & Hl & HA & W16 & Hk & _ & H)]]; cbn zeta in H; rewrite HP in H; try discriminate.
    symmetry in H. apply Hf in H; [|assumption]. exists len, k. split; [tauto|]. split; [assumption|]. lia.
  - intros (len & k & Hl & HA & Hk). destruct (at_elem_reads b id len k f (rret None) W Hid ltac:(lia) HA) as (W16 & HL & ->).
    apply Hf; [assumption|]. lia.
Qed.

(** ** Property forms, witnesses and examples *)
Lemma parsers_no_panic :
  (forall obit n b, (n <= 64)%nat -> wf b -> parse_type2_generic obit n b <> Panic) /\
  (forall T obit (p : reader T) b, rsafe p -> wf b -> parse_type2_struct obit p b <> Panic) /\
  (forall T obit id (p : reader T) b, rsafe p -> wf b -> parse_type3_struct obit id p b <> Panic).
Proof.
  split; [|split]; intros; apply rsafe_not_panic; auto using rsafe_type2_generic, rsafe_type2_struct, rsafe_type3_struct.
Qed.

(** A 22-bit type 4 element whose length field is 0, and a type 3 element announcing 2047 bits of
    which only 64 arrive: both within one uplink slot. *)
Definition evil4 : list bool := true :: bits_of 4 8 ++ bits_of 11 0 ++ bits_of 6 1.
Definition evil3 : list bool := true :: bits_of 4 5 ++ bits_of 11 2047 ++ bits_of 64 0.
Lemma type4_hostile : exists b, bb_from_bitstr evil4 = Ok b /\ wf b /\
  forall T (p : reader T), parse_type4_struct true 8 p b = Panic /\ parse_type4_generic true 8 b = Panic.
Proof.
  eexists. split; [vm_compute; reflexivity|]. split.
  - unfold wf, cap. cbn. repeat split; try lia. repeat constructor.
  - intros T p. split; vm_compute; reflexivity.
Qed.
Lemma type3_hostile : exists b, bb_from_bitstr evil3 = Ok b /\ wf b /\ parse_type3_generic true 5 b = Panic.
Proof.
  eexists. split; [vm_compute; reflexivity|]. split.
  - unfold wf, cap. cbn. repeat split; try lia. repeat constructor.
  - vm_compute; reflexivity.
Qed.

(** A received placeholder element longer than 64 bits cannot be written back: the writer panics. *)
Lemma type3_generic_long_panics :
  exists b e b', bb_from_bitstr (true :: bits_of 4 5 ++ bits_of 11 70 ++ bits_of 64 1 ++ bits_of 6 63 ++ [false]) = Ok b /\
    wf b /\ parse_type3_generic true 5 b = Ok (Some e, b') /\
    write_type3_generic true (Some e) 5 (bb_new_autoexpand 100) = Panic.
Proof.
  eexists _, _, _. split; [vm_compute; reflexivity|]. split; [|split; vm_compute; reflexivity].
  unfold wf, cap. cbn. repeat split; try lia. repeat constructor.
Qed.
(** Sixty-four elements do not fit the 6-bit count: the writer panics. *)
Lemma type4_too_many_panics :
  exists vs : list N, write_type4_struct true (Some vs) 8 (fun v => wfield v 4) (bb_new_autoexpand 100) = Panic /\
    forall v, In v vs -> roundtrips (wfield v 4) (rfield 4) v.
Proof.
  exists (repeat 3 64). split; [vm_compute; reflexivity|]. intros v Hv. apply repeat_spec in Hv. subst v.
  exists (bits_of 4 3). split; [apply writes_field; [lia|reflexivity]|apply reads_field; [lia|reflexivity]].
Qed.

Lemma body_example :
  let f2 := [F2g 5; F2g 24; F2s (fun v => wfield v 3) (rfield 3)] in
  let v2 := [V2g None; V2g (Some 1234567); V2s (Some 5)] in
  let f34 := [F3g 2; F3s 3 (fun v => wfield v 7) (rfield 7); F4s 8 (fun v => wfield v 30) (rfield 30); F3g 15] in
  let v34 := [V3g (Some (mk_t3g 2 17 99999)); V3s None; V4s (Some [1; 2; 1000000000]); V3g None] in
  Forall2 ok2 f2 v2 /\ Forall2 ok34 f34 v34 /\ NoDup (map f34_id f34).
Proof.
  cbv zeta. split; [|split].
  - repeat constructor; cbn [ok2]; try lia; intros x E; try discriminate E; injection E as <-.
    + reflexivity.
    + exists (bits_of 3 5). split; [apply writes_field; [lia|reflexivity]|apply reads_field; [lia|reflexivity]].
  - constructor; [|constructor; [|constructor; [|constructor; [|constructor]]]]; unfold ok34; cbn [f34_id]; (split; [reflexivity|]); intros x E; try discriminate E; injection E as <-.
    + cbn. split; [reflexivity|]. split; [lia|reflexivity].
    + exists (map (bits_of 30) [1; 2; 1000000000]). split; [|split; cbn; lia].
      repeat constructor; try (apply writes_field; [lia|reflexivity]); apply reads_field; try lia; reflexivity.
  - cbn. repeat constructor; cbn; intuition discriminate.
Qed.
