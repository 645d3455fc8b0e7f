(** Parsers of layer 3 messages on given bits: they return a value or an error unless the bits are dangerous in the
    sense of [Layer3Spec]. *)
From Verif Require Import Base BitsLib BitBuffer BitBufferProofs BitBufferOps Codec CodecProofs TypedFields TypedFieldsProofs TypedFieldsFacts
  CmceFields CmcePdus MmFields MmPdus Layer3Spec.
Open Scope nat_scope.

(** [good l P r]: on a buffer with the bits [l] left, [r] does not panic; a value it returns and the number of bits it
    takes satisfy [P]. *)
Definition good {A} (l : list bool) (P : A -> nat -> Prop) (r : reader A) : Prop :=
  forall b, wf b -> remaining b = l ->
  match r b with
  | Ok (x, b') => exists n, b' = adv b n /\ n <= length l /\ P x n
  | Err _ => True
  | Panic => False
  end.
Definition any {A} : A -> nat -> Prop := fun _ _ => True.

Lemma good_bind {A B} l (P : A -> nat -> Prop) (Q : B -> nat -> Prop) (r : reader A) (k : A -> reader B) :
  good l P r -> (forall x n, n <= length l -> P x n -> good (skipn n l) (fun y m => Q y (n + m)) (k x)) -> good l Q (rbind r k).
Proof.
  intros H1 H2 b W E. unfold rbind. specialize (H1 b W E). destruct (r b) as [[x b1]| |]; cbn [bind fst snd]; try exact H1.
  destruct H1 as (n & -> & Hn & Px). specialize (H2 x n Hn Px (adv b n)).
  rewrite <- E in Hn. specialize (H2 (wf_adv _ _ W Hn)). rewrite remaining_adv, E in H2 by assumption. specialize (H2 eq_refl).
  destruct (k x (adv b n)) as [[y b2]| |]; try exact H2. destruct H2 as (m & -> & Hm & Q'). exists (n + m). rewrite adv_adv. split; [reflexivity|].
  rewrite skipn_length in Hm. rewrite E in Hn. split; [lia|exact Q'].
Qed.
Lemma good_weaken {A} l (P Q : A -> nat -> Prop) r : (forall x n, n <= length l -> P x n -> Q x n) -> good l P r -> good l Q r.
Proof. intros H G b W E. specialize (G b W E). destruct (r b) as [[x b']| |]; try exact G. destruct G as (n & A1 & A2 & A3). exists n. auto. Qed.
Lemma good_rsafe {A} l (r : reader A) : rsafe r -> good l any r.
Proof. intros H b W E. specialize (H b W). destruct (r b) as [[x b']| |]; try exact H. destruct H as (n & A1 & A2). exists n. rewrite <- E. split; [exact A1|]. split; [exact A2|exact I]. Qed.
Lemma good_ret {A} l (x : A) (P : A -> nat -> Prop) : P x 0 -> good l P (rret x).
Proof. intros H b W E. exists 0. rewrite adv_0. split; [reflexivity|]. split; [lia|exact H]. Qed.
Lemma good_field n l : n <= 64 -> good l (fun x m => m = n /\ x = bits_val (firstn n l)) (rfield n).
Proof.
  intros Hn b W E. unfold rfield. rewrite read_field_spec by assumption. rewrite E. destruct (Nat.leb_spec n (length l)); [|exact I].
  exists n. split; [reflexivity|]. split; [assumption|]. split; reflexivity.
Qed.
Lemma good_flag l : good l (fun x m => m = 1 /\ x = bit 0 l) rflag.
Proof.
  unfold rflag. eapply good_bind; [apply good_field; lia|]. cbv beta. intros x n Hn (-> & ->). apply good_ret. split; [lia|].
  destruct l as [|[|] t]; [cbn in Hn; lia|reflexivity|reflexivity].
Qed.

(** Reading from position [a] of the message [l]. *)
Definition from {A} (l : list bool) (a : nat) (r : reader A) : Prop := good (skipn a l) any r.
Lemma from_field {A} l a n (k : N -> reader A) : n <= 64 -> (forall x, x = field a n l -> from l (a + n) (k x)) -> from l a (rbind (rfield n) k).
Proof.
  intros Hn H. eapply good_bind; [apply good_field; exact Hn|]. cbv beta. intros x m Hm (-> & E). rewrite skipn_skipn'. exact (H x E).
Qed.
Lemma from_flag {A} l a (k : bool -> reader A) : (forall x, x = bit a l -> from l (a + 1) (k x)) -> from l a (rbind rflag k).
Proof.
  intros H. eapply good_bind; [apply good_flag|]. cbv beta. intros x m Hm (-> & E). rewrite skipn_skipn'. apply H. rewrite E. unfold bit.
  rewrite <- (firstn_skipn a l) at 2. rewrite skipn_length in Hm. rewrite app_nth2; rewrite firstn_length, Nat.min_l by lia; [now rewrite Nat.sub_diag|lia].
Qed.
Lemma from_guard {A} l a c e (k : unit -> reader A) : (c = true -> from l a (k tt)) -> from l a (rbind (rguard c e) k).
Proof.
  intros H b W E. unfold rbind, rguard. destruct c; cbn [bind fst snd]; [|exact I]. unfold rret. cbn [bind fst snd]. exact (H eq_refl b W E).
Qed.
Lemma from_ret {A} l a (x : A) : from l a (rret x).
Proof. apply good_ret. exact I. Qed.
Lemma from_opt {A B} l a (c : bool) (r : reader A) (k : option A -> reader B) w : (c = true -> good (skipn a l) (fun _ m => m = w) r) ->
  (forall x, from l (a + if c then w else 0) (k x)) -> from l a (rbind (ropt c r) k).
Proof.
  intros H K. destruct c; cbn [ropt].
  - assert (good (skipn a l) (fun (_ : option A) m => m = w) (v <~ r ;; rret (Some v))) as G.
    { eapply good_bind; [exact (H eq_refl)|]. cbv beta. intros x m Hm ->. apply good_ret. lia. }
    eapply good_bind; [exact G|]. cbv beta. intros x m Hm ->. rewrite skipn_skipn'. apply K.
  - apply (good_bind _ (fun (_ : option A) m => m = 0)); [now apply good_ret|]. cbv beta. intros x m _ ->. cbn [skipn]. specialize (K x).
    rewrite Nat.add_0_r in K. exact K.
Qed.
Lemma from_optf {B} l a (c : bool) n (k : option N -> reader B) : n <= 64 ->
  (forall x, from l (a + if c then n else 0) (k x)) -> from l a (rbind (ropt c (rfield n)) k).
Proof. intros Hn. apply from_opt. intros _. eapply good_weaken; [|apply good_field; exact Hn]. now intros x m _ (-> & _). Qed.
Lemma from_safe {A B} l a (r : reader A) (k : A -> reader B) : rsafe r -> (forall x, rsafe (k x)) -> from l a (rbind r k).
Proof. intros H1 H2. apply good_rsafe. now apply rsafe_bind. Qed.

(** ** Optional elements *)
Lemma elem_shape b id len k : at_elem b id len k -> exists rest, remaining b = true :: bits_of 4 id ++ bits_of 11 len ++ rest /\ length rest = k.
Proof. auto. Qed.
Lemma skip16 id len rest : skipn 16 (true :: bits_of 4 id ++ bits_of 11 len ++ rest) = rest.
Proof.
  change (skipn 15 (bits_of 4 id ++ bits_of 11 len ++ rest) = rest). rewrite app_assoc.
  assert (length (bits_of 4 id ++ bits_of 11 len) = 15) as L by (rewrite app_length, !bits_of_length; reflexivity).
  rewrite skipn_app, skipn_all2, L by (rewrite L; lia). reflexivity.
Qed.

(** The rest of a sequence without a bad element has none either. *)
Lemma element_rest Q id len rest : (id < 16)%N -> (len < 2048)%N -> ~ some_element Q (true :: bits_of 4 id ++ bits_of 11 len ++ rest) ->
  ~ Q id len rest /\ (N.to_nat len <= length rest -> ~ some_element Q (skipn (16 + N.to_nat len) (true :: bits_of 4 id ++ bits_of 11 len ++ rest))).
Proof.
  intros Hi Hl H. split.
  - intros B. apply H. exists id, len, rest. split; [now constructor|exact B].
  - intros L (i & n & r & E & B). rewrite <- skipn_skipn' in E. rewrite skip16 in E. apply H. exists i, n, r. split; [|exact B]. now apply element_later.
Qed.

Lemma element_length c id len rest : c = true :: bits_of 4 id ++ bits_of 11 len ++ rest -> length c = 16 + length rest.
Proof. intros ->. cbn [length]. rewrite !app_length, !bits_of_length. lia. Qed.

(** The body of an element whose length field drives a skip. *)
Lemma generic_body {A} (len : nat) (g : N -> A) l : ~ (64 <= length l < len) ->
  good l (fun _ n => n = len)
    (data <~ rfield (if (64 <? len)%nat then 64 else len) ;;
     (if (64 <? len)%nat then rseek_rel (Z.of_nat len - 64) else rret tt) ;~ rret (g data)).
Proof.
  intros H b W E. destruct (Nat.ltb_spec 64 len) as [L|L].
  - unfold rbind, rfield. rewrite read_field_spec by (assumption || lia). rewrite E.
    destruct (Nat.leb_spec 64 (length l)); cbn [bind fst snd]; [|exact I].
    unfold rseek_rel. replace (Z.of_nat len - 64)%Z with (Z.of_nat (len - 64)) by lia.
    rewrite seek_rel_adv; [|apply wf_adv; [assumption|rewrite E; lia]|rewrite remaining_adv, skipn_length, E by assumption; lia].
    cbn [bind fst snd]. unfold rret. exists len. rewrite adv_adv. split; [f_equal; lia|]. split; [lia|reflexivity].
  - revert b W E. eapply good_bind; [apply good_field; lia|]. cbv beta. intros x n Hn (-> & _). unfold rbind, rret. intros b W E. cbn [bind fst snd].
    exists 0. rewrite adv_0. split; [reflexivity|]. split; lia.
Qed.

Section Elements.
Variable Q : N -> N -> list bool -> Prop.
Definition clean (c : list bool) : Prop := ~ some_element Q c.

Lemma type3_clean c id : (id < 16)%N -> (forall i n r, overlong i n r -> Q i n r) -> clean c ->
  good c (fun _ n => clean (skipn n c)) (parse_type3_generic true id).
Proof.
  intros Hid HQ Hc b W E. unfold parse_type3_generic. cbn [negb].
  set (f := fun len_n : N => _ : reader (option type3_generic)).
  destruct (elem_cases id f (rret None) b W Hid) as [H|[(e & H)|(len & k & Hl & HA & W16 & Hk & _ & H)]]; cbv zeta in H; rewrite H.
  - exists 0. rewrite adv_0. split; [reflexivity|]. split; [lia|exact Hc].
  - exact I.
  - destruct HA as (rest & ER & Lr). rewrite E in ER. pose proof (element_length _ _ _ _ ER) as Lc. rewrite ER in E, Hc, Lc |- *.
    destruct (element_rest Q id len rest Hid Hl Hc) as [B R].
    assert (remaining (adv b 16) = rest) as E16 by (rewrite remaining_adv by assumption; rewrite E; apply skip16).
    pose proof (generic_body (N.to_nat len) (fun data => Some (mk_t3g id (N.to_nat len) data)) rest ltac:(intros X; apply B, HQ; exact X) (adv b 16) W16 E16) as G.
    change (match f len (adv b 16) with Ok (_, b') => exists n, b' = adv (adv b 16) n /\ n <= length rest /\ n = N.to_nat len | Err _ => True | Panic => False end) in G.
    destruct (f len (adv b 16)) as [[x b']| |]; [|exact I|exact G]. destruct G as (n & -> & Ln & ->).
    exists (16 + N.to_nat len). rewrite adv_adv. split; [reflexivity|]. split; [rewrite Lc; lia|]. exact (R Ln).
Qed.

(** A body parsed between two position readings, whose length is checked. *)
Lemma between_exact {A B} (r : reader A) (len : nat) (f : A -> B) l : good l any r ->
  good l (fun _ n => n = len)
    (start_pos <~ rget_pos ;; result <~ r ;; pos <~ rget_pos ;;
     if negb (start_pos + len =? pos)%nat then rassert (start_pos <=? pos)%nat ;~ rerr EInconsistentLength else rret (f result)).
Proof.
  intros Hr b W E. unfold rbind, rget_pos. rewrite get_pos_ok by assumption. cbn [bind fst snd].
  specialize (Hr b W E). destruct (r b) as [[x b1]| |]; cbn [bind fst snd]; try exact Hr.
  destruct Hr as (n & -> & Hn & _). rewrite <- E in Hn. pose proof (wf_adv _ _ W Hn) as W1. rewrite get_pos_ok by assumption. cbn [bind fst snd].
  destruct (Nat.eqb_spec (bpos b - bstart b + len) (bpos (adv b n) - bstart (adv b n))) as [D|D]; cbn [negb].
  - exists n. split; [reflexivity|]. rewrite E in Hn. split; [exact Hn|]. unfold adv in D. cbn [set_pos bpos bstart] in D. destruct W. lia.
  - unfold adv. cbn [set_pos bpos bstart]. unfold rassert, assert. destruct (Nat.leb_spec (bpos b - bstart b) (bpos b + n - bstart b)); [exact I|destruct W; lia].
Qed.

Lemma type3_struct_clean {T} c id (p : reader T) : (id < 16)%N -> clean c ->
  (forall len rest, ~ Q id len rest -> good rest any p) -> good c (fun _ n => clean (skipn n c)) (parse_type3_struct true id p).
Proof.
  intros Hid Hc Hp b W E. unfold parse_type3_struct. cbn [negb].
  set (f := fun len_n : N => _ : reader (option T)).
  destruct (elem_cases id f (rret None) b W Hid) as [H|[(e & H)|(len & k & Hl & HA & W16 & Hk & _ & H)]]; cbv zeta in H; rewrite H.
  - exists 0. rewrite adv_0. split; [reflexivity|]. split; [lia|exact Hc].
  - exact I.
  - destruct HA as (rest & ER & Lr). rewrite E in ER. pose proof (element_length _ _ _ _ ER) as Lc. rewrite ER in E, Hc, Lc |- *.
    destruct (element_rest Q id len rest Hid Hl Hc) as [B R].
    assert (remaining (adv b 16) = rest) as E16 by (rewrite remaining_adv by assumption; rewrite E; apply skip16).
    pose proof (between_exact p (N.to_nat len) (@Some T) rest (Hp len rest B) (adv b 16) W16 E16) as G.
    change (match f len (adv b 16) with Ok (_, b') => exists n, b' = adv (adv b 16) n /\ n <= length rest /\ n = N.to_nat len | Err _ => True | Panic => False end) in G.
    destruct (f len (adv b 16)) as [[x b']| |]; [|exact I|exact G]. destruct G as (n & -> & Ln & ->).
    exists (16 + N.to_nat len). rewrite adv_adv. split; [reflexivity|]. split; [rewrite Lc; lia|]. exact (R Ln).
Qed.

Lemma type4_struct_clean {T} c (p : reader T) : rsafe p -> (forall n r, c = true :: bits_of 4 8 ++ bits_of 11 n ++ r -> stunted 8 n r -> Q 8 n r) -> clean c ->
  good c (fun _ n => clean (skipn n c)) (parse_type4_struct true 8 p).
Proof.
  intros Hp HQ Hc b W E. unfold parse_type4_struct. cbn [negb]. rewrite type4_header_bind. cbv beta iota.
  set (f := fun len_n : N => _ : reader (option (list T))).
  destruct (elem_cases 8 f (rret None) b W ltac:(lia)) as [H|[(e & H)|(len & k & Hl & HA & W16 & Hk & _ & H)]]; cbv zeta in H; rewrite H.
  - exists 0. rewrite adv_0. split; [reflexivity|]. split; [lia|exact Hc].
  - exact I.
  - destruct HA as (rest & ER & Lr). rewrite E in ER. pose proof (element_length _ _ _ _ ER) as Lc. rewrite ER in E, Hc, Lc |- *.
    destruct (element_rest Q 8 len rest ltac:(lia) Hl Hc) as [B R].
    assert (remaining (adv b 16) = rest) as E16 by (rewrite remaining_adv by assumption; rewrite E; apply skip16).
    set (g := fun h : nat * nat => let (num_elems, len_bits) := h in
      (start_pos <~ rget_pos ;; elems <~ parse_elems num_elems p ;; pos <~ rget_pos ;;
      if negb (start_pos + len_bits =? pos)%nat then rassert (start_pos <=? pos)%nat ;~ rerr EInconsistentLength
      else rret (Some elems))).
    destruct (type4_tail_cases len g (adv b 16) W16) as [(H1 & H2)|[(H1 & H2 & H3)|(H1 & H2 & m & H3)]]; cbv zeta in *.
    + change (f len (adv b 16) = Err EBufferEnded) in H2. rewrite H2. exact I.
    + exfalso. apply B, HQ; [exact ER|]. split; [reflexivity|]. rewrite E16 in H1. split; [exact H2|exact H1].
    + change (f len (adv b 16) = g (m, N.to_nat len - 6) (adv (adv b 16) 6)) in H3. rewrite H3. rewrite E16 in H1.
      assert (wf (adv (adv b 16) 6)) as W22 by (apply wf_adv; [assumption|rewrite E16; exact H1]).
      pose proof (between_exact (parse_elems m p) (N.to_nat len - 6) (@Some (list T)) (skipn 6 rest) (good_rsafe _ _ (rsafe_elems m p Hp)) (adv (adv b 16) 6) W22
        ltac:(rewrite remaining_adv, E16 by assumption; reflexivity)) as G.
      unfold g. cbv beta iota. match type of G with match ?t with _ => _ end => destruct t as [[x b']| |] end; [|exact I|exact G]. destruct G as (n & -> & Ln & ->). rewrite skipn_length in Ln.
      exists (16 + N.to_nat len). rewrite !adv_adv. split; [f_equal; lia|]. split; [rewrite Lc; lia|]. apply R. lia.
Qed.
End Elements.

(** A type 2 element. *)
Lemma type2_good c w : w <= 64 -> good c (fun _ n => skipn n c = type2 w c) (parse_type2_generic true w).
Proof.
  intros Hw. unfold parse_type2_generic. cbn [negb]. eapply good_bind; [apply good_flag|]. cbv beta. intros p n Hn (-> & ->).
  destruct c as [|[|] t]; [cbn in Hn; lia| |].
  - change (bit 0 (true :: t)) with true. cbv iota. eapply good_bind; [apply good_field; exact Hw|]. cbv beta. intros x m Hm (-> & _). apply good_ret.
    cbn [type2 skipn Nat.add]. now rewrite Nat.add_0_r.
  - change (bit 0 (false :: t)) with false. cbv iota. apply good_ret. reflexivity.
Qed.

(** A sequence of elements: nothing is read when the o-bit is clear. *)
Definition tail_ok {A} (Q : N -> N -> list bool -> Prop) (obit : bool) (r : reader A) : Prop := forall c, (obit = true -> clean Q c) -> good c any r.
Lemma tail_3 {A} (Q : N -> N -> list bool -> Prop) obit id (k : option type3_generic -> reader A) : (id < 16)%N -> (forall i n r, overlong i n r -> Q i n r) ->
  (forall x, tail_ok Q obit (k x)) -> tail_ok Q obit (rbind (parse_type3_generic obit id) k).
Proof.
  intros Hid HQ K c Hc. destruct obit.
  - eapply good_bind; [apply (type3_clean Q); auto|]. cbv beta. intros x n _ H. apply K. intros _. exact H.
  - intros b W E. exact (K None c ltac:(discriminate) b W E).
Qed.
Lemma tail_3s {A T} (Q : N -> N -> list bool -> Prop) obit id (p : reader T) (k : option T -> reader A) : (id < 16)%N -> (forall len rest, ~ Q id len rest -> good rest any p) ->
  (forall x, tail_ok Q obit (k x)) -> tail_ok Q obit (rbind (parse_type3_struct obit id p) k).
Proof.
  intros Hid HQ K c Hc. destruct obit.
  - eapply good_bind; [apply (type3_struct_clean Q); auto|]. cbv beta. intros x n _ H. apply K. intros _. exact H.
  - intros b W E. exact (K None c ltac:(discriminate) b W E).
Qed.
Lemma tail_4s {A T} (Q : N -> N -> list bool -> Prop) obit (p : reader T) (k : option (list T) -> reader A) : rsafe p -> (forall n r, stunted 8 n r -> Q 8%N n r) ->
  (forall x, tail_ok Q obit (k x)) -> tail_ok Q obit (rbind (parse_type4_struct obit 8 p) k).
Proof.
  intros Hp HQ K c Hc. destruct obit.
  - eapply good_bind; [apply (type4_struct_clean Q); auto|]. cbv beta. intros x n _ H. apply K. intros _. exact H.
  - intros b W E. exact (K None c ltac:(discriminate) b W E).
Qed.
Lemma rsafe_trailing obit : rsafe (read_trailing obit).
Proof. unfold read_trailing. apply rsafe_bind; [destruct obit; [apply rsafe_flag|apply rsafe_ret]|]. intros t. apply rsafe_guard. Qed.
Lemma tail_end {A} Q obit (x : A) : tail_ok Q obit (read_trailing obit ;~ rret x).
Proof. intros c _. apply good_rsafe. apply rsafe_bind; [apply rsafe_trailing|]. intros; apply rsafe_ret. Qed.
