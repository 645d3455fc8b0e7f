(** How a received block is taken apart: proofs, part one (buffers). *)
From Coq Require Import Arith.
From Verif Require Import Base BitsLib BitBuffer BitBufferProofs BitBufferOps Codec CodecProofs TypedFields MacFields MacPdus MacBroadcastProofs FillBits FillProofs
  TdmaTime TdmaTimeProofs Defrag DefragSpec DefragProofs FragSpec FragProofs UlSched DlSched StealProofs UmacBs UlBlockSpec.
Open Scope nat_scope.

(** * Readers look only at what lies ahead *)
Definition rlocal {A} (r : reader A) : Prop := forall b b', wf b -> wf b' -> remaining b = remaining b' ->
  match r b, r b' with
  | Ok (x, c), Ok (x', c') => x = x' /\ exists n, n <= length (remaining b) /\ c = adv b n /\ c' = adv b' n
  | Err _, Err _ => True
  | Panic, Panic => True
  | _, _ => False
  end.
Lemma local_ret {A} (x : A) : rlocal (rret x).
Proof. intros b b' W W' E. cbn. split; [reflexivity|]. exists 0. rewrite !adv_0. repeat split. lia. Qed.
Lemma local_err {A} e : rlocal (@rerr A e).
Proof. intros b b' W W' E. exact Logic.I. Qed.
Lemma local_panic {A} : rlocal (@rpanic A).
Proof. intros b b' W W' E. exact Logic.I. Qed.
Lemma local_field n : n <= 64 -> rlocal (rfield n).
Proof.
  intros Hn b b' W W' E. unfold rfield. rewrite !read_field_spec by assumption. rewrite <- E. destruct (Nat.leb_spec n (length (remaining b))); [|exact Logic.I].
  split; [reflexivity|]. exists n. auto.
Qed.
Lemma local_bind {A B} (r : reader A) (k : A -> reader B) : rlocal r -> (forall x, rlocal (k x)) -> rlocal (rbind r k).
Proof.
  intros H1 H2 b b' W W' E. unfold rbind. specialize (H1 b b' W W' E). destruct (r b) as [[x c]| |], (r b') as [[x' c']| |]; cbn [bind fst snd]; try contradiction; try exact Logic.I.
  destruct H1 as (<- & n & Hn & -> & ->).
  assert (E' : remaining (adv b n) = remaining (adv b' n)) by (rewrite !remaining_adv by assumption; now rewrite E).
  specialize (H2 x (adv b n) (adv b' n) (wf_adv _ _ W Hn) (wf_adv _ n W' ltac:(now rewrite <- E)) E').
  destruct (k x (adv b n)) as [[y d]| |], (k x (adv b' n)) as [[y' d']| |]; try contradiction; try exact Logic.I.
  destruct H2 as (<- & m & Hm & -> & ->). split; [reflexivity|]. exists (n + m). rewrite !adv_adv. repeat split.
  rewrite remaining_adv, skipn_length in Hm by assumption. lia.
Qed.
Lemma local_flag : rlocal rflag.
Proof. apply local_bind; [apply local_field; lia|]. intros x. apply local_ret. Qed.
Lemma local_assert c : rlocal (rassert c).
Proof. destruct c; [apply local_ret|apply local_panic]. Qed.
Lemma local_lift {A} (x : res A) : rlocal (rlift x).
Proof. destruct x; [apply local_ret|apply local_err|apply local_panic]. Qed.
Lemma local_if {A} (c : bool) (r1 r2 : reader A) : rlocal r1 -> rlocal r2 -> rlocal (if c then r1 else r2).
Proof. destruct c; auto. Qed.
Lemma local_ignore : rlocal r_ignore_bit.
Proof.
  intros b b' W W' E. unfold r_ignore_bit. rewrite !read_bits_opt_spec by (assumption || lia). rewrite <- E. cbn [bind].
  destruct (Nat.leb_spec 1 (length (remaining b))); (split; [reflexivity|]); [exists 1|exists 0]; rewrite ?adv_0; repeat split; lia.
Qed.
Ltac local := repeat first
  [apply local_bind; [|intros ?]|apply local_if|apply local_field; lia|apply local_flag|apply local_assert|apply local_lift|apply local_ret|apply local_err|apply local_panic|apply local_ignore].
Lemma mdata_local : rlocal mdata_read. Proof. unfold mdata_read, mu_read_addr. local. Qed.
Lemma macc_local : rlocal macc_read. Proof. unfold macc_read, mu_read_addr. local. Qed.
Lemma mfrag_local : rlocal mfrag_read. Proof. unfold mfrag_read. local. Qed.
Lemma meul_local : rlocal meul_read. Proof. unfold meul_read. local. Qed.
Lemma mehu_local : rlocal mehu_read. Proof. unfold mehu_read. local. Qed.
Lemma ublck_local : rlocal ublck_read. Proof. unfold ublck_read. local. Qed.
Lemma usignal_local : rlocal usignal_read. Proof. unfold usignal_read. local. Qed.

(** What [parse] says is what the reader does. *)
Lemma read_parse {A} (r : reader A) pre rest b : rlocal r -> rsafe_at pre r -> wf b -> remaining b = pre ++ rest ->
  match parse r (remaining b) with
  | Some (x, n) => n <= length (remaining b) /\ r b = Ok (x, adv b n)
  | None => exists e, r b = Err e
  end.
Proof.
  intros L S W E. unfold parse. destruct (from_bitstr_spec (remaining b)) as (c & Ec & Wc & Pc & _ & Xc). rewrite Ec.
  assert (R : remaining b = remaining c) by (unfold remaining at 2; rewrite Pc; symmetry; exact Xc).
  specialize (L b c W Wc R). specialize (S b rest W E). destruct (r b) as [[x d]| |], (r c) as [[x' d']| |]; try contradiction; eauto.
  destruct L as (<- & n & Hn & -> & ->). unfold adv, set_pos. cbn [bpos]. replace (bpos c + n - bpos c) with n by lia. auto.
Qed.

(** * How many bits a reader takes *)
Definition took {A} (P : A -> nat -> Prop) (r : reader A) : Prop := forall b x b', wf b -> r b = Ok (x, b') ->
  exists n, n <= length (remaining b) /\ b' = adv b n /\ P x n.
Lemma took_ret {A} (P : A -> nat -> Prop) x : P x 0 -> took P (rret x).
Proof. intros H b y b' W E. injection E as <- <-. exists 0. rewrite adv_0. repeat split; [lia|assumption]. Qed.
Lemma took_bind {A B} (P : A -> nat -> Prop) (Q : B -> nat -> Prop) (r : reader A) (k : A -> reader B) :
  took P r -> (forall x n, P x n -> took (fun y m => Q y (n + m)) (k x)) -> took Q (rbind r k).
Proof.
  intros H1 H2 b y b' W. unfold rbind. destruct (r b) as [[x c]| |] eqn:E1; cbn [bind fst snd]; try discriminate. intros E2.
  destruct (H1 b x c W E1) as (n & Hn & -> & HP). destruct (H2 x n HP (adv b n) y b' (wf_adv _ _ W Hn) E2) as (m & Hm & -> & HQ).
  exists (n + m). rewrite adv_adv. repeat split; [|assumption]. rewrite remaining_adv, skipn_length in Hm by assumption. lia.
Qed.
Lemma took_field n : n <= 64 -> took (fun x m => m = n /\ (x < 2 ^ N.of_nat n)%N) (rfield n).
Proof.
  intros Hn b x b' W E. pose proof (rfield_bound _ _ _ _ Hn W E) as B. unfold rfield in E. rewrite read_field_spec in E by assumption.
  destruct (Nat.leb_spec n (length (remaining b))); [|discriminate]. injection E as <- <-. exists n. auto.
Qed.
Lemma took_flag : took (fun _ m => m = 1) rflag.
Proof. eapply took_bind; [apply took_field; lia|]. intros x n (-> & _). now apply took_ret. Qed.
Lemma took_assert c : took (fun _ m => m = 0 /\ c = true) (rassert c).
Proof. destruct c; [now apply took_ret|]. intros b x b' W E. discriminate. Qed.
Lemma took_lift {A} (x : res A) : took (fun y m => m = 0 /\ x = Ok y) (rlift x).
Proof. intros b y b' W E. destruct x; try discriminate. injection E as <- <-. exists 0. rewrite adv_0. repeat split. lia. Qed.
Lemma took_if {A} (P : A -> nat -> Prop) (c : bool) r1 r2 : (c = true -> took P r1) -> (c = false -> took P r2) -> took P (if c then r1 else r2).
Proof. destruct c; auto. Qed.
Lemma took_err {A} (P : A -> nat -> Prop) e : took P (rerr e).
Proof. intros b x b' W E. discriminate. Qed.
Lemma took_panic {A} (P : A -> nat -> Prop) : took P rpanic.
Proof. intros b x b' W E. discriminate. Qed.
Lemma took_ignore : took (fun _ m => m <= 1) r_ignore_bit.
Proof.
  intros b x b' W E. unfold r_ignore_bit in E. rewrite read_bits_opt_spec in E by (assumption || lia). cbn [bind] in E.
  destruct (Nat.leb_spec 1 (length (remaining b))); injection E as <- <-; [exists 1|exists 0]; rewrite ?adv_0; repeat split; lia.
Qed.
Lemma took_weaken {A} (P Q : A -> nat -> Prop) r : (forall x n, P x n -> Q x n) -> took P r -> took Q r.
Proof. intros H T b x b' W E. destruct (T b x b' W E) as (n & H1 & H2 & H3). eauto. Qed.

Definition addr_shape (n : nat) (a : option tetra_addr * option N) (m : nat) : Prop :=
  match a with (Some _, None) => m = n + 26 | (None, Some _) => m = n + 12 | _ => False end.
Lemma took_addr e : took (addr_shape 0) (mu_read_addr e).
Proof.
  unfold mu_read_addr. eapply took_bind; [apply took_field; lia|]. intros t n (-> & _).
  repeat (apply took_if; intros _; [eapply took_bind; [apply took_field; lia|]; intros s m (-> & _); apply took_ret; cbn; lia|]). apply took_panic.
Qed.
(** The header of MAC-DATA and MAC-ACCESS: exactly one kind of address; how long it is when a length is given; the request *)
Definition ul_shape (h : nat) (p : mac_ul) (n : nat) : Prop :=
  match mu_addr p, mu_el p with
  | Some a, None => 0 < n /\ (mu_len p <> None -> n = h /\ mu_req p = None /\ mu_frag p = None) /\ (mu_len p = None -> mu_frag p = None -> mu_req p = None)
  | None, Some _ => True
  | _, _ => False
  end.
Lemma mdata_shape : took (fun p n => ul_shape 37 p n /\ (mu_len p = None -> mu_frag p <> None) /\ (forall q, mu_req p = Some q -> (q <= 15)%N)) mdata_read.
Proof.
  unfold mdata_read. eapply took_bind; [apply took_field; lia|]. intros t n (-> & _). eapply took_bind; [apply took_assert|]. intros ? n (-> & _).
  eapply took_bind; [apply took_flag|]. intros fill n ->. eapply took_bind; [apply took_flag|]. intros en n ->.
  eapply took_bind; [apply took_addr|]. intros ae n A. eapply took_bind; [apply took_field; lia|]. intros f m (-> & _).
  apply took_if; intros _.
  - eapply took_bind; [apply took_field; lia|]. intros l m (-> & _). apply took_ret. unfold ul_shape. cbn [mu_addr mu_el mu_len mu_req mu_frag fst snd].
    destruct ae as [[a|] [e|]]; cbn [addr_shape fst snd] in *; try contradiction; repeat split; try discriminate; lia.
  - eapply took_bind; [apply took_flag|]. intros fr m ->. eapply took_bind; [apply took_field; lia|]. intros v m (-> & Hv). eapply took_bind; [apply took_lift|]. intros q m (-> & Hq).
    eapply took_bind; [apply took_ignore|]. intros ? m Hm. apply took_ret. unfold ul_shape. cbn [mu_addr mu_el mu_len mu_req mu_frag fst snd].
    split; [destruct ae as [[a|] [e|]]; cbn [addr_shape fst snd] in *; try contradiction; repeat split; try congruence; lia|]. split; [discriminate|].
    intros q' E. injection E as <-. unfold resreq_try_from in Hq. destruct (N.leb_spec v 15); [injection Hq as <-; lia|discriminate Hq].
Qed.
Lemma macc_shape : took (fun p n => ul_shape 36 p n /\ (forall q, mu_req p = Some q -> (q <= 15)%N)) macc_read.
Proof.
  unfold macc_read. eapply took_bind; [apply took_field; lia|]. intros t n (-> & _). eapply took_bind; [apply took_assert|]. intros ? n (-> & _).
  eapply took_bind; [apply took_flag|]. intros fill n ->. eapply took_bind; [apply took_flag|]. intros en n ->.
  eapply took_bind; [apply took_addr|]. intros ae n A. eapply took_bind; [apply took_flag|]. intros o m ->. apply took_if; intros _.
  - eapply took_bind; [apply took_field; lia|]. intros f m (-> & _). apply took_if; intros _.
    + eapply took_bind; [apply took_field; lia|]. intros l m (-> & _). apply took_ret. unfold ul_shape. cbn [mu_addr mu_el mu_len mu_req mu_frag fst snd].
      destruct ae as [[a|] [e|]]; cbn [addr_shape fst snd] in *; try contradiction; repeat split; try discriminate; lia.
    + eapply took_bind; [apply took_flag|]. intros fr m ->. eapply took_bind; [apply took_field; lia|]. intros v m (-> & Hv). eapply took_bind; [apply took_lift|]. intros q m (-> & Hq).
      apply took_ret. unfold ul_shape. cbn [mu_addr mu_el mu_len mu_req mu_frag fst snd].
      split; [destruct ae as [[a|] [e|]]; cbn [addr_shape fst snd] in *; try contradiction; repeat split; try congruence; lia|].
      intros q' E. injection E as <-. unfold resreq_try_from in Hq. destruct (N.leb_spec v 15); [injection Hq as <-; lia|discriminate Hq].
  - apply took_ret. unfold ul_shape. cbn [mu_addr mu_el mu_len mu_req mu_frag fst snd].
    destruct ae as [[a|] [e|]]; cbn [addr_shape fst snd] in *; try contradiction; repeat split; try discriminate; try congruence; lia.
Qed.
Lemma mfrag_shape : took (fun _ n => n = 4) mfrag_read.
Proof.
  unfold mfrag_read. eapply took_bind; [apply took_field; lia|]. intros t n (-> & _). eapply took_bind; [apply took_assert|]. intros ? n (-> & _).
  eapply took_bind; [apply took_field; lia|]. intros s n (-> & _). eapply took_bind; [apply took_assert|]. intros ? n (-> & _).
  apply took_weaken with (2 := took_flag). intros y n ->. reflexivity.
Qed.
Lemma meul_shape : took (fun p n => n = 10 /\ eu_req p = None /\ eu_len p <> None) meul_read.
Proof.
  unfold meul_read. eapply took_bind; [apply took_field; lia|]. intros t n (-> & _). eapply took_bind; [apply took_assert|]. intros ? n (-> & _).
  eapply took_bind; [apply took_field; lia|]. intros s n (-> & _). eapply took_bind; [apply took_assert|]. intros ? n (-> & _).
  eapply took_bind; [apply took_flag|]. intros fill n ->. eapply took_bind; [apply took_field; lia|]. intros v n (-> & Hv).
  apply took_if; intros _; [apply took_err|]. apply took_if; intros E1; [apply took_ret; split; [lia|]; split; [reflexivity|discriminate]|].
  apply took_if; intros E2; [apply took_err|]. apply N.ltb_ge in E2. change (2 ^ N.of_nat 6)%N with 64%N in Hv. lia.
Qed.
Lemma mehu_shape : took (fun p n => n = 7 /\ forall q, eh_req p = Some q -> (q <= 15)%N) mehu_read.
Proof.
  unfold mehu_read. eapply took_bind; [apply took_field; lia|]. intros t n (-> & _). eapply took_bind; [apply took_assert|]. intros ? n (-> & _).
  eapply took_bind; [apply took_flag|]. intros fill n ->. eapply took_bind; [apply took_field; lia|]. intros f n (-> & _).
  apply took_if; intros _.
  - eapply took_bind; [apply took_field; lia|]. intros l n (-> & _). apply took_ret. split; [lia|discriminate].
  - eapply took_bind; [apply took_field; lia|]. intros v m (-> & Hv). eapply took_bind; [apply took_lift|]. intros q m (-> & Hq). apply took_ret. split; [lia|].
    cbn [eh_req]. intros q' E. injection E as <-. unfold resreq_try_from, ok_or in Hq. destruct (N.leb_spec v 15); [injection Hq as <-; lia|discriminate Hq].
Qed.
Lemma usignal_shape : took (fun _ n => n = 3) usignal_read.
Proof.
  unfold usignal_read. eapply took_bind; [apply took_field; lia|]. intros t n (-> & _). eapply took_bind; [apply took_assert|]. intros ? n (-> & _).
  apply took_weaken with (2 := took_flag). intros y n ->. reflexivity.
Qed.
Lemma read_ul {A} (r : reader A) pre rest P b : rlocal r -> rsafe_at pre r -> took P r -> wf b -> remaining b = pre ++ rest ->
  match parse r (remaining b) with
  | Some (x, n) => n <= length (remaining b) /\ r b = Ok (x, adv b n) /\ P x n
  | None => exists e, r b = Err e
  end.
Proof.
  intros L S T W E. pose proof (read_parse r pre rest b L S W E) as H. destruct (parse r (remaining b)) as [[x n]|]; [|exact H].
  destruct H as (H1 & H2). split; [exact H1|]. split; [exact H2|]. destruct (T b x _ W H2) as (m & _ & E2 & HP).
  unfold adv, set_pos in E2. injection E2 as E2. replace n with m by lia. exact HP.
Qed.

(** * Cutting *)
Lemma drop_pad_suffix l : exists t, l = t ++ drop_pad l.
Proof.
  induction l as [|[] l IH]; [now exists []|now exists [true]|]. destruct IH as (t & IH). exists (false :: t). cbn [app drop_pad]. now rewrite <- IH.
Qed.
Lemma strip_prefix l : strip l = firstn (length (strip l)) l.
Proof.
  unfold strip. destruct (drop_pad_suffix (rev l)) as (t & E). apply (f_equal (@rev bool)) in E. rewrite rev_involutive, rev_app_distr in E.
  rewrite E at 3. rewrite firstn_app, Nat.sub_diag, firstn_all. cbn [firstn]. now rewrite app_nil_r.
Qed.
Lemma unfill_prefix fill l : unfill fill l = firstn (length (unfill fill l)) l.
Proof. unfold unfill. destruct (fill && _); [apply strip_prefix|now rewrite firstn_all]. Qed.
Lemma strip_short l : length (strip l) <= length l.
Proof. rewrite strip_prefix, firstn_length. lia. Qed.
Lemma unfill_short fill l : length (unfill fill l) <= length l.
Proof. rewrite unfill_prefix, firstn_length. lia. Qed.
Lemma remaining_end b e : wf b -> bpos b <= e <= bend b -> remaining (set_end b e) = firstn (e - bpos b) (remaining b).
Proof. intros W H. unfold remaining, set_end. cbn [bytes bpos bend]. rewrite firstn_bits_rng. f_equal. lia. Qed.
Lemma wf_end b e : wf b -> bpos b <= e <= bend b -> wf (set_end b e).
Proof. intros (A & B & C & D) H. unfold wf, set_end, cap in *. cbn [bytes bstart bpos bend autoexp]. repeat split; try lia; assumption. Qed.
Lemma cut_short fill len h b : wf b -> bpos b = bstart b -> len < h -> h <= length (remaining b) -> cut_pdu fill len (adv b h) = Panic.
Proof.
  intros W P H1 H2. unfold cut_pdu.
  assert (W1 : wf (adv b h)) by now apply wf_adv.
  assert (EW : window (adv b h) = remaining b) by (unfold remaining, window, adv, set_pos; cbn [bytes bstart bend]; now rewrite P).
  assert (E : (if fill then get_num_fill_bits (adv b h) len else Ok 0) = Ok 0).
  { destruct fill; [|reflexivity]. rewrite num_fill_spec by (assumption || (rewrite EW; lia)). rewrite EW.
    replace (bpos (adv b h) - bstart (adv b h)) with h by (unfold adv, set_pos; cbn [bpos bstart]; lia).
    rewrite skipn_all2 by (rewrite firstn_length; lia). reflexivity. }
  rewrite E. cbn [bind]. unfold sub_checked. cbn [Nat.leb bind]. rewrite Nat.sub_0_r. unfold set_raw_end.
  destruct (_ <=? cap _); [|reflexivity]. cbn [assert bind]. destruct (_ <=? _); [|reflexivity]. cbn [assert bind].
  destruct (Nat.leb_spec (bpos (adv b h)) (bstart (adv b h) + len)) as [X|X]; [|reflexivity]. unfold adv, set_pos in X. cbn [bpos bstart] in X. lia.
Qed.
Lemma cut_spec fill len h b : wf b -> bpos b = bstart b -> h <= len -> len <= length (remaining b) ->
  exists nf, cut_pdu fill len (adv b h) = Ok (nf, len - nf, set_end (adv b h) (bstart b + (len - nf))) /\ nf <= len - h /\
    remaining (set_end (adv b h) (bstart b + (len - nf))) = sdu_of fill h len (remaining b) /\ wf (set_end (adv b h) (bstart b + (len - nf))).
Proof.
  intros W P H1 H2. unfold cut_pdu. set (l := remaining b) in *.
  assert (W1 : wf (adv b h)) by (apply wf_adv; [assumption|fold l; lia]).
  assert (EW : window (adv b h) = l) by (unfold l, remaining, window, adv, set_pos; cbn [bytes bstart bend]; now rewrite P).
  set (body := skipn h (firstn len l)).
  assert (LB : length body = len - h) by (unfold body; rewrite skipn_length, firstn_length; lia).
  assert (E : (if fill then get_num_fill_bits (adv b h) len else Ok 0) = Ok (length body - length (unfill fill body))).
  { unfold unfill. destruct fill; cbn [andb]; [|now rewrite Nat.sub_diag]. rewrite num_fill_spec by (assumption || (rewrite EW; lia)). rewrite EW.
    replace (bpos (adv b h) - bstart (adv b h)) with h by (unfold adv, set_pos; cbn [bpos bstart]; lia). fold body. cbv zeta.
    destruct (existsb _ body); [reflexivity|now rewrite Nat.sub_diag]. }
  pose proof (unfill_short fill body) as US. set (nf := length body - length (unfill fill body)) in *.
  exists nf. rewrite E. cbn [bind]. unfold sub_checked. destruct (Nat.leb_spec nf len); [|lia]. cbn [bind].
  assert (PE : bpos (adv b h) = bstart b + h) by (unfold adv, set_pos; cbn [bpos]; lia).
  assert (EE : bend (adv b h) = bend b) by reflexivity. assert (ES : bstart (adv b h) = bstart b) by reflexivity.
  assert (LE : length l = bend b - bstart b) by (unfold l; rewrite remaining_length; lia). pose proof W as (V1 & V2 & _).
  assert (BB : bpos (adv b h) <= bstart b + (len - nf) <= bend (adv b h)) by (rewrite PE, EE; unfold nf; lia).
  rewrite ES. unfold set_raw_end. pose proof W1 as (X1 & X2 & X3 & _).
  destruct (Nat.leb_spec (bstart b + (len - nf)) (cap (adv b h))); [|lia]. cbn [assert bind].
  destruct (Nat.leb_spec (bstart (adv b h)) (bstart b + (len - nf))); [|lia]. cbn [assert bind].
  destruct (Nat.leb_spec (bpos (adv b h)) (bstart b + (len - nf))); [|lia]. cbn [assert bind].
  split; [reflexivity|]. split; [unfold nf; lia|]. split; [|now apply wf_end].
  rewrite remaining_end by assumption. rewrite remaining_adv by assumption. fold l. unfold sdu_of. fold body.
  rewrite (unfill_prefix fill body). replace (bstart b + (len - nf) - bpos (adv b h)) with (length (unfill fill body)) by (rewrite PE; unfold nf; lia).
  transitivity (firstn (length (unfill fill body)) (firstn (len - h) (skipn h l))); [rewrite firstn_firstn; f_equal; lia|]. f_equal. unfold body. now rewrite skipn_firstn_comm.
Qed.
Lemma next_spec b c ext n : wf b -> bpos b = bstart b -> bytes c = bytes b -> bstart c = bstart b -> autoexp c = autoexp b -> wf c -> bpos c <= bend b ->
  n = ext -> ext <= length (remaining b) ->
  exists d, next_pdu (bend b) n c = Ok d /\ wf d /\ bpos d = bstart d /\ bstart d = bstart b + ext /\ remaining d = skipn ext (remaining b) /\ window d = skipn ext (remaining b).
Proof.
  intros W P B S A Wc Pc -> H. rewrite remaining_length in H. unfold wf, cap in *. destruct b as [bs st po en au], c as [bs' st' po' en' au']. cbn [bytes bstart bpos bend autoexp] in *. subst.
  destruct W as (X1 & X2 & X3 & X4), Wc as (Y1 & Y2 & Y3 & Y4). unfold next_pdu, set_raw_end, set_raw_pos, set_raw_start, cap. cbn [bytes bstart bpos bend autoexp].
  destruct (Nat.leb_spec en (length bs * 8)); [|lia]. cbn [assert bind set_pos set_end bytes bstart bpos bend autoexp]. destruct (Nat.leb_spec st en); [|lia]. cbn [assert bind set_pos set_end bytes bstart bpos bend autoexp]. destruct (Nat.leb_spec po' en); [|lia]. cbn [assert bind set_end bytes bstart bpos bend autoexp].
  destruct (Nat.leb_spec st (st + ext)); [|lia]. cbn [assert bind set_pos set_end bytes bstart bpos bend autoexp]. destruct (Nat.leb_spec (st + ext) en) as [Z1|Z1]; [|lia]. cbn [assert bind set_pos set_end bytes bstart bpos bend autoexp].
  destruct (Nat.leb_spec (st + ext) en) as [Z2|Z2]; [|lia]. cbn [assert bind set_pos set_end bytes bstart bpos bend autoexp]. rewrite Nat.leb_refl. cbn [assert bind set_pos set_end bytes bstart bpos bend autoexp]. eexists. split; [reflexivity|].
  unfold set_start, remaining, window. cbn [bytes bstart bpos bend autoexp]. rewrite !skipn_bits_rng. repeat split; try lia; try assumption; f_equal; unfold set_pos, set_end; cbn [bytes bstart bpos bend autoexp]; lia.
Qed.
