(** Step lemmas and tactics for PDUs specified with PduSpec.v. *)
From Verif Require Import Base BitsLib BitBuffer BitBufferProofs BitBufferOps Codec CodecProofs TypedFields TypedFieldsProofs PduSpec.
Open Scope N_scope.

Lemma fit_lt n v : fit n v = true -> v < 2 ^ N.of_nat n.
Proof. apply N.ltb_lt. Qed.

(** ** Writing *)
Lemma w_num n v k L : (n <= 64)%nat -> fit n v = true -> writes k L -> writes (wfield v n >> k) (num n v ++ L).
Proof. intros A B C. apply writes_then; [|exact C]. apply writes_field; [exact A|now apply fit_lt]. Qed.
Lemma w_flag x k L : writes k L -> writes (wflag x >> k) (flag x ++ L).
Proof. intros C. apply writes_then; [apply writes_flag|exact C]. Qed.
Lemma w_cond n o k L : (n <= 64)%nat -> fito n o = true -> writes k L -> writes (wopt o (fun v => wfield v n) >> k) (cond n o ++ L).
Proof.
  intros A B C. apply writes_then; [|exact C]. destruct o as [v|]; cbn [wopt cond].
  - apply writes_field; [exact A|now apply fit_lt].
  - apply writes_ret.
Qed.
Lemma w_sub (w : wr) k l L : writes w l -> writes k L -> writes (w >> k) (l ++ L).
Proof. apply writes_then. Qed.
Lemma w_t2 n o k L : (n <= 64)%nat -> fito n o = true -> writes k L -> writes (write_type2_generic true o n >> k) (t2 n o ++ L).
Proof.
  intros A B C. apply writes_then; [|exact C]. destruct o as [v|]; cbn [t2].
  - apply type2_generic_present; [reflexivity|exact A|now apply fit_lt].
  - now apply type2_generic_absent.
Qed.
Lemma w_t2s {T} (f : T -> list bool) (w : T -> wr) o k L :
  (forall v, o = Some v -> writes (w v) (f v)) -> writes k L -> writes (write_type2_struct true o w >> k) (t2s f o ++ L).
Proof.
  intros A C. apply writes_then; [|exact C]. destruct o as [v|]; cbn [t2s].
  - apply (writes_then _ _ [true] (f v)); [apply (writes_bit true)|now apply A].
  - apply (writes_bit false).
Qed.
Lemma fit3_elim id e : fit3 id (Some e) = true -> t3_id e = id /\ (t3_len e <= 64)%nat /\ t3_data e < 2 ^ N.of_nat (t3_len e).
Proof.
  unfold fit3. rewrite !andb_true_iff. intros [[A B] C]. apply N.eqb_eq in A. apply Nat.leb_le in B. apply fit_lt in C. auto.
Qed.
Lemma t3_some id e : t3 id (Some e) = type3_bits id (bits_of (t3_len e) (t3_data e)).
Proof. unfold t3, type3_bits. rewrite bits_of_length. reflexivity. Qed.
Lemma w_t3 id o k L : id < 16 -> fit3 id o = true -> writes k L -> writes (write_type3_generic true o id >> k) (t3 id o ++ L).
Proof.
  intros A B C. apply writes_then; [|exact C]. destruct o as [e|].
  - apply fit3_elim in B. destruct B as (B1 & B2 & B3). rewrite t3_some. now apply type3_generic_present.
  - apply writes_ret.
Qed.
Lemma w_mbit0 : writes (write_mbit 0) [false].
Proof. apply (writes_bit false). Qed.
Lemma w_options (obit : bool) (present : list bool) (W : wr) body :
  obit = existsb id present -> (obit = true -> writes W (body ++ [false])) ->
  writes (write_obit (N.b2n obit) >> (if negb obit then wret else W)) (options present body).
Proof.
  intros E H. unfold options. rewrite <- E. clear E. destruct obit; cbn [negb N.b2n].
  - apply (writes_then _ _ [true]); [apply (writes_bit true)|now apply H].
  - apply writes_then_r; [apply (writes_bit false)|apply writes_ret].
Qed.
Lemma w_guard c e k L : c = true -> writes k L -> writes (wguard c e >> k) L.
Proof. intros A B. apply writes_then0; [now apply writes_guard|exact B]. Qed.

(** ** Reading *)
Lemma r_num {A} F n v (k : N -> reader A) L x :
  (n <= 64)%nat -> fit n v = true -> readsF F (k v) L x -> readsF F (rbind (rfield n) k) (num n v ++ L) x.
Proof. intros H B C. eapply readsF_bind'; [|exact C]. apply reads_field; [exact H|now apply fit_lt]. Qed.
Lemma r_flag {A} F v (k : bool -> reader A) L x : readsF F (k v) L x -> readsF F (rbind rflag k) (flag v ++ L) x.
Proof. intros C. eapply readsF_bind'; [|exact C]. apply reads_flag. Qed.
Lemma r_guard {A} F c e (k : unit -> reader A) L x : c = true -> readsF F (k tt) L x -> readsF F (rbind (rguard c e) k) L x.
Proof. intros H C. apply (readsF_bind' F _ k [] L tt); [now apply reads_guard|exact C]. Qed.
Lemma r_assert {A} F c (k : unit -> reader A) L x : c = true -> readsF F (k tt) L x -> readsF F (rbind (rassert c) k) L x.
Proof. intros H C. apply (readsF_bind' F _ k [] L tt); [now apply reads_assert|exact C]. Qed.
Lemma r_lift {A B} F (o : res B) a (k : B -> reader A) L x : o = Ok a -> readsF F (k a) L x -> readsF F (rbind (rlift o) k) L x.
Proof. intros H C. apply (readsF_bind' F _ k [] L a); [now apply reads_lift|exact C]. Qed.
Lemma r_retl {A B} F (a : B) (k : B -> reader A) L x : readsF F (k a) L x -> readsF F (rbind (rret a) k) L x.
Proof. intros C. apply (readsF_bind' F _ k [] L a); [apply reads_ret|exact C]. Qed.
Lemma r_cond {A} F c n o (k : option N -> reader A) L x :
  (n <= 64)%nat -> c = some o -> fito n o = true -> readsF F (k o) L x ->
  readsF F (rbind (ropt c (rfield n)) k) (cond n o ++ L) x.
Proof.
  intros H Ec B C. eapply readsF_bind'; [|exact C]. subst c. destruct o as [v|]; cbn [some ropt cond].
  - rewrite <- (app_nil_r (bits_of _ _)). eapply reads_bind; [apply reads_field; [exact H|now apply fit_lt]|apply reads_ret].
  - apply reads_ret.
Qed.
Lemma r_sub {A B} F (r : reader B) y (k : B -> reader A) l L x : reads r l y -> readsF F (k y) L x -> readsF F (rbind r k) (l ++ L) x.
Proof. intros H C. eapply readsF_bind'; [exact H|exact C]. Qed.
Lemma r_t2 {A} F n o (k : option N -> reader A) L x :
  (n <= 64)%nat -> fito n o = true -> readsF F (k o) L x -> readsF F (rbind (parse_type2_generic true n) k) (t2 n o ++ L) x.
Proof.
  intros H B C. eapply readsF_bind'; [|exact C]. destruct o as [v|]; cbn [t2].
  - apply type2_generic_present; [reflexivity|exact H|now apply fit_lt].
  - now apply type2_generic_absent.
Qed.
Lemma r_t2s {A T} F (f : T -> list bool) (r : reader T) o (k : option T -> reader A) L x :
  (forall v, o = Some v -> reads r (f v) v) -> readsF F (k o) L x -> readsF F (rbind (parse_type2_struct true r) k) (t2s f o ++ L) x.
Proof.
  intros H C. eapply readsF_bind'; [|exact C]. unfold parse_type2_struct. cbn [negb]. destruct o as [v|]; cbn [t2s].
  - apply (reads_bind read_pbit _ [true] (f v) true); [apply reads_flag|].
    cbn iota. rewrite <- (app_nil_r (f v)). eapply reads_bind; [now apply H|apply reads_ret].
  - apply (reads_bind read_pbit _ [false] [] false); [apply reads_flag|apply reads_ret].
Qed.
Lemma r_t3 {A} F id o (k : option type3_generic -> reader A) L x :
  id < 16 -> fit3 id o = true -> readsF F (k o) L x -> (forall rest, F rest -> no_elem id (L ++ rest)) ->
  readsF F (rbind (parse_type3_generic true id) k) (t3 id o ++ L) x.
Proof.
  intros H B C Fo. destruct o as [e|].
  - apply fit3_elim in B. destruct B as (B1 & B2 & B3). eapply readsF_bind'; [|exact C].
    rewrite t3_some. now apply type3_generic_present.
  - apply (readsF_bind (no_elem id) F _ k [] L None x); [apply parse_type3_generic_absent|exact C|exact Fo].
Qed.
Lemma no_elem_t3 i j o L : j < 16 -> i <> j -> no_elem i L -> no_elem i (t3 j o ++ L).
Proof. intros A B C. destruct o as [e|]; [|exact C]. rewrite t3_some. now apply no_elem_type3. Qed.
Lemma r_done {A} (x y : A) : x = y -> reads (rret x) [] y.
Proof. intros ->. apply reads_ret. Qed.

Lemma existsb_all_false l : existsb id l = false -> Forall (fun b => b = false) l.
Proof. induction l as [|a l IH]; [constructor|]. cbn [existsb id]. unfold id. intros E. apply orb_false_elim in E. constructor; [apply E|apply IH, E]. Qed.
Lemma some_false {T} (o : option T) : some o = false -> o = None.
Proof. now destruct o. Qed.
Lemma some_is_some {T} (o : option T) : is_some o = some o.
Proof. now destruct o. Qed.

(** o-bit clear: every optional element is absent and nothing is read *)
Lemma r_absent2 {A} F n (k : option N -> reader A) L x : readsF F (k None) L x -> readsF F (rbind (parse_type2_generic false n) k) L x.
Proof. apply r_retl. Qed.
Lemma r_absent2s {A T} F (r : reader T) (k : option T -> reader A) L x : readsF F (k None) L x -> readsF F (rbind (parse_type2_struct false r) k) L x.
Proof. apply r_retl. Qed.
Lemma r_absent3 {A} F id (k : option type3_generic -> reader A) L x : readsF F (k None) L x -> readsF F (rbind (parse_type3_generic false id) k) L x.
Proof. apply r_retl. Qed.

(** o-bit *)
Lemma r_obit {A} F present body (k : bool -> reader A) x :
  (existsb id present = true -> readsF F (k true) (body ++ [false]) x) ->
  (Forall (fun b => b = false) present -> readsF F (k false) [] x) ->
  readsF F (rbind read_obit k) (options present body) x.
Proof.
  intros H1 H2. unfold options. destruct (existsb id present) eqn:E.
  - apply (r_flag F true k (body ++ [false]) x). now apply H1.
  - apply (r_flag F false k [] x). apply H2. now apply existsb_all_false.
Qed.
