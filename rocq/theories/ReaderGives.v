(** What a reader returns when it succeeds, on any well-formed buffer. *)
From Verif Require Import Base BitsLib BitBuffer BitBufferOps BitBufferProofs Codec CodecProofs TypedFields TypedFieldsProofs CmceFields.
Open Scope N_scope.

Definition gives {A} (P : A -> Prop) (r : reader A) : Prop := forall b x b', wf b -> r b = Ok (x, b') -> P x /\ wf b'.

Lemma gives_ret {A} (P : A -> Prop) x : P x -> gives P (rret x).
Proof. intros H b y b' W [= <- <-]. auto. Qed.
Lemma gives_err {A} (P : A -> Prop) e : gives P (rerr e).
Proof. intros b y b' W H. discriminate H. Qed.
Lemma gives_bind {A B} (P : A -> Prop) (Q : B -> Prop) (r : reader A) (k : A -> reader B) :
  gives P r -> (forall x, P x -> gives Q (k x)) -> gives Q (rbind r k).
Proof.
  intros H K b y b' W E. unfold rbind in E. destruct (r b) as [[x b1]| |] eqn:E1; [|discriminate E..]. cbn [bind fst snd] in E.
  destruct (H b x b1 W E1) as [Px W1]. exact (K x Px b1 y b' W1 E).
Qed.
Lemma gives_weaken {A} (P Q : A -> Prop) r : (forall x, P x -> Q x) -> gives P r -> gives Q r.
Proof. intros H G b x b' W E. destruct (G b x b' W E). auto. Qed.
Lemma gives_safe {A} (r : reader A) : rsafe r -> gives (fun _ => True) r.
Proof.
  intros S b x b' W E. split; [exact Logic.I|]. specialize (S b W). rewrite E in S. destruct S as (n & -> & L). now apply wf_adv.
Qed.
Lemma gives_field n : (n <= 64)%nat -> gives (fun x => x < 2 ^ N.of_nat n) (rfield n).
Proof. intros H b x b' W E. split; [exact (rfield_bound n b x b' H W E)|]. exact (proj2 (gives_safe _ (rsafe_field n H) b x b' W E)). Qed.
Lemma gives_flag : gives (fun _ => True) rflag.
Proof. apply gives_safe, rsafe_flag. Qed.
Lemma gives_guard c e : gives (fun _ => c = true) (rguard c e).
Proof. destruct c; [now apply gives_ret|apply gives_err]. Qed.
Lemma gives_assert c : gives (fun _ => c = true) (rassert c).
Proof. destruct c; [now apply gives_ret|]. intros b x b' W E. discriminate E. Qed.
Lemma gives_if {A} (P : A -> Prop) (c : bool) r1 r2 : (c = true -> gives P r1) -> (c = false -> gives P r2) -> gives P (if c then r1 else r2).
Proof. destruct c; auto. Qed.
Lemma gives_lift {A} (x : res A) : gives (fun y => x = Ok y) (rlift x).
Proof. intros b y b' W E. unfold rlift in E. destruct x as [z| |]; [|discriminate E..]. injection E as <- <-. auto. Qed.
Lemma gives_pos : gives (fun _ => True) rget_pos.
Proof. intros b x b' W E. unfold rget_pos in E. destruct (get_pos b); [|discriminate E..]. injection E as <- <-. auto. Qed.
Lemma gives_seek n : gives (fun _ => True) (rseek_rel n).
Proof.
  intros b x b' W E. split; [exact Logic.I|]. unfold rseek_rel, seek_rel in E. pose proof W as (W1 & W2 & W3 & W4).
  destruct ((_ <=? _)%Z && (_ <=? _)%Z)%bool eqn:C; [|discriminate E]. cbn [assert bind] in E. injection E as _ <-.
  apply andb_true_iff in C. destruct C as [C1 C2]. apply Z.leb_le in C1, C2. unfold wf, set_pos in *. cbn [bytes bstart bpos bend autoexp] in *.
  repeat split; try assumption; lia.
Qed.
Lemma gives_peek id : gives (fun _ => True) (peek_type34_mbit_and_id id).
Proof. apply gives_safe, rsafe_peek. Qed.
Lemma gives_ropt {A} (P : A -> Prop) c r : gives P r -> gives (fun o => match o with Some x => P x | None => True end) (ropt c r).
Proof. intros H. unfold ropt. destruct c; [|now apply gives_ret]. eapply gives_bind; [exact H|]. intros x Px. now apply gives_ret. Qed.
Lemma gives_trailing o : gives (fun _ => True) (read_trailing o).
Proof.
  unfold read_trailing. eapply gives_bind; [apply gives_if; intros _; [apply gives_flag|now apply gives_ret]|]. intros x _.
  eapply gives_weaken; [|apply gives_guard]. auto.
Qed.
Lemma gives_any {A} (P : A -> Prop) r : gives P r -> gives (fun _ => True) r.
Proof. apply gives_weaken. auto. Qed.

Lemma gives_type2_generic o n : (n <= 64)%nat -> gives (fun x => match x with Some v => v < 2 ^ N.of_nat n | None => True end) (parse_type2_generic o n).
Proof.
  intros H. unfold parse_type2_generic. apply gives_if; intros _; [now apply gives_ret|]. eapply gives_bind; [apply gives_flag|]. intros p _.
  apply gives_if; intros _; [|now apply gives_ret]. eapply gives_bind; [now apply gives_field|]. intros x Hx. now apply gives_ret.
Qed.
Lemma gives_type2_struct {T} (P : T -> Prop) o r : gives P r -> gives (fun x => match x with Some v => P v | None => True end) (parse_type2_struct o r).
Proof.
  intros H. unfold parse_type2_struct. apply gives_if; intros _; [now apply gives_ret|]. eapply gives_bind; [apply gives_flag|]. intros p _.
  apply gives_if; intros _; [|now apply gives_ret]. eapply gives_bind; [exact H|]. intros x Hx. now apply gives_ret.
Qed.
Lemma gives_type3_generic o id : gives (fun x => match x with Some e => t3_id e = id /\ N.of_nat (t3_len e) < 2048 | None => True end) (parse_type3_generic o id).
Proof.
  unfold parse_type3_generic. apply gives_if; intros _; [now apply gives_ret|]. eapply gives_bind; [apply gives_peek|]. intros p _.
  apply gives_if; intros _; [now apply gives_ret|]. eapply gives_bind; [apply gives_seek|]. intros _ _.
  eapply gives_bind; [apply (gives_field 11); lia|]. intros n Hn. cbv zeta beta in *. change (2 ^ N.of_nat 11) with 2048 in Hn.
  eapply gives_bind; [apply gives_field; destruct (Nat.ltb_spec 64 (N.to_nat n)); lia|]. intros d _.
  eapply gives_bind; [apply gives_if; intros _; [apply gives_seek|now apply gives_ret]|]. intros _ _. apply gives_ret. cbn [t3_id t3_len]. split; [reflexivity|lia].
Qed.
Lemma gives_type3_struct {T} (P : T -> Prop) o id r : gives P r -> gives (fun x => match x with Some v => P v | None => True end) (parse_type3_struct o id r).
Proof.
  intros H. unfold parse_type3_struct. apply gives_if; intros _; [now apply gives_ret|]. eapply gives_bind; [apply gives_peek|]. intros p _.
  apply gives_if; intros _; [now apply gives_ret|]. eapply gives_bind; [apply gives_seek|]. intros _ _.
  eapply gives_bind; [apply (gives_any _ _ (gives_field 11 ltac:(lia)))|]. intros n _. eapply gives_bind; [apply gives_pos|]. intros s _.
  eapply gives_bind; [exact H|]. intros v Pv. eapply gives_bind; [apply gives_pos|]. intros q _.
  apply gives_if; intros _; [|now apply gives_ret]. eapply gives_bind; [apply gives_assert|]. intros _ _. apply gives_err.
Qed.
Lemma gives_elems {T} (P : T -> Prop) n r : gives P r -> gives (fun l => Forall P l /\ length l = n) (parse_elems n r).
Proof.
  intros H. induction n as [|n IH]; cbn [parse_elems]; [now apply gives_ret|]. eapply gives_bind; [exact H|]. intros x Px.
  eapply gives_bind; [exact IH|]. intros l [Pl L]. apply gives_ret. split; [now constructor|cbn; now rewrite L].
Qed.
Lemma gives_type4_struct {T} (P : T -> Prop) o id r : gives P r ->
  gives (fun x => match x with Some l => Forall P l /\ (length l < 64)%nat | None => True end) (parse_type4_struct o id r).
Proof.
  intros H. unfold parse_type4_struct. apply gives_if; intros _; [now apply gives_ret|].
  eapply (gives_bind (fun h => match h with Some (n, _) => (n < 64)%nat | None => True end)).
  - unfold parse_type4_header. eapply gives_bind; [apply gives_peek|]. intros p _. apply gives_if; intros _; [now apply gives_ret|].
    eapply gives_bind; [apply gives_seek|]. intros _ _. eapply gives_bind; [apply (gives_any _ _ (gives_field 11 ltac:(lia)))|]. intros n _.
    eapply gives_bind; [apply (gives_field 6); lia|]. intros m Hm. cbv beta in Hm. change (2 ^ N.of_nat 6) with 64 in Hm.
    eapply gives_bind; [apply gives_lift|]. intros d _. apply gives_ret. lia.
  - intros [[n len]|] Hn; [|now apply gives_ret]. eapply gives_bind; [apply gives_pos|]. intros s _.
    eapply gives_bind; [apply gives_elems, H|]. intros l [Pl L]. eapply gives_bind; [apply gives_pos|]. intros q _.
    apply gives_if; intros _; [|apply gives_ret; split; [exact Pl|lia]]. eapply gives_bind; [apply gives_assert|]. intros _ _. apply gives_err.
Qed.
