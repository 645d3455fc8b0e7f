(** Proof rules for wire layouts. *)
From Verif Require Import Base BitsLib BitBuffer BitBufferProofs BitBufferOps Codec CodecProofs Layout.
Open Scope N_scope.

Lemma enc_app L1 L2 : enc (L1 ++ L2) = enc L1 ++ enc L2.
Proof. unfold enc. now rewrite flat_map_app. Qed.
Lemma fits_app L1 L2 : fits (L1 ++ L2) = (fits L1 && fits L2)%bool.
Proof. unfold fits. now rewrite forallb_app. Qed.
Lemma enc_length L : length (enc L) = width L.
Proof.
  induction L as [|[v n] L IH]; [reflexivity|]. cbn [enc flat_map fst snd]. rewrite app_length, bits_of_length.
  change (flat_map _ L) with (enc L). rewrite IH. reflexivity.
Qed.
Lemma width_app L1 L2 : width (L1 ++ L2) = (width L1 + width L2)%nat.
Proof. unfold width. rewrite map_app. now rewrite list_sum_app. Qed.

(** Proof rules. *)
Definition WL (w : wr) (L : layout) : Prop := fits L = true -> writes w (enc L).
Definition RL {A} (r : reader A) (L : layout) (x : A) : Prop := fits L = true -> reads r (enc L) x.

Lemma fits_cons v n L : fits ((v, n) :: L) = true -> v < 2 ^ N.of_nat n /\ fits L = true.
Proof. cbn [fits forallb fst snd]. intros H. apply andb_prop in H. destruct H as (H1 & H2). apply N.ltb_lt in H1. auto. Qed.

Lemma WL_ret : WL wret [].
Proof. intros _. apply writes_ret. Qed.
Lemma WL_field v n k L : (n <= 64)%nat -> WL k L -> WL (wthen (wfield v n) k) ((v, n) :: L).
Proof. intros Hn H F. apply fits_cons in F. destruct F as (F1 & F2). apply (writes_then _ _ (bits_of n v) (enc L)); [now apply writes_field|now apply H]. Qed.
Lemma WL_flag x k L : WL k L -> WL (wthen (wflag x) k) (fl x :: L).
Proof.
  intros H F. apply fits_cons in F. destruct F as (F1 & F2). apply (writes_then _ _ (bits_of 1 (N.b2n x)) (enc L)); [|now apply H].
  rewrite bits_of_1_b2n. apply writes_flag.
Qed.
Lemma WL_assert c k L : c = true -> WL k L -> WL (wthen (wassert c) k) L.
Proof. intros -> H F. apply writes_then0; [now apply writes_assert|now apply H]. Qed.
Lemma WL_guard c e k L : c = true -> WL k L -> WL (wthen (wguard c e) k) L.
Proof. intros -> H F. apply writes_then0; [now apply writes_guard|now apply H]. Qed.
Lemma WL_sub w k L1 L2 : WL w L1 -> WL k L2 -> WL (wthen w k) (L1 ++ L2).
Proof.
  intros H1 H2 F. rewrite fits_app in F. apply andb_prop in F. destruct F. rewrite enc_app.
  apply writes_then; [now apply H1|now apply H2].
Qed.
Lemma wthen_assoc w1 w2 w3 b : wthen (wthen w1 w2) w3 b = wthen w1 (wthen w2 w3) b.
Proof. unfold wthen. destruct (w1 b) as [b1| |]; reflexivity. Qed.
Lemma writes_ext w w' l : (forall b, w b = w' b) -> writes w l -> writes w' l.
Proof. intros E H b W R. rewrite <- E. now apply H. Qed.
Lemma WL_assoc w1 w2 w3 L : WL (wthen w1 (wthen w2 w3)) L -> WL (wthen (wthen w1 w2) w3) L.
Proof. intros H F. eapply writes_ext; [|apply H, F]. intros b. symmetry. apply wthen_assoc. Qed.
Lemma WL_ret_l k L : WL k L -> WL (wthen wret k) L.
Proof. intros H F. apply writes_then0; [apply writes_ret|now apply H]. Qed.
Lemma WL_ret_r w L : WL (wthen w wret) L -> WL w L.
Proof. intros H F. eapply writes_ext; [|apply H, F]. intros b. unfold wthen. destruct (w b); reflexivity. Qed.
Lemma WL_nil L w : WL w (L ++ []) -> WL w L.
Proof. now rewrite app_nil_r. Qed.

Lemma RL_ret {A} (x : A) : RL (rret x) [] x.
Proof. intros _. apply reads_ret. Qed.
Lemma RL_ret_eq {A} (x y : A) : x = y -> RL (rret x) [] y.
Proof. intros ->. apply RL_ret. Qed.
Lemma RL_field {A} v n (k : N -> reader A) L x : (n <= 64)%nat -> (v < 2 ^ N.of_nat n -> RL (k v) L x) -> RL (rbind (rfield n) k) ((v, n) :: L) x.
Proof. intros Hn H F. apply fits_cons in F. destruct F as (F1 & F2). apply (reads_bind _ _ (bits_of n v) (enc L) v); [now apply reads_field|now apply H]. Qed.
Lemma RL_flag {A} v (k : bool -> reader A) L x : RL (k v) L x -> RL (rbind rflag k) (fl v :: L) x.
Proof.
  intros H F. apply fits_cons in F. destruct F as (F1 & F2). apply (reads_bind _ _ (bits_of 1 (N.b2n v)) (enc L) v); [|now apply H].
  rewrite bits_of_1_b2n. apply reads_flag.
Qed.
Lemma RL_flag0 {A} (k : bool -> reader A) L x : RL (k false) L x -> RL (rbind rflag k) ((0, 1%nat) :: L) x.
Proof. apply (RL_flag false). Qed.
Lemma RL_flag1 {A} (k : bool -> reader A) L x : RL (k true) L x -> RL (rbind rflag k) ((1, 1%nat) :: L) x.
Proof. apply (RL_flag true). Qed.
Lemma RL_assert {A} c (k : unit -> reader A) L x : c = true -> RL (k tt) L x -> RL (rbind (rassert c) k) L x.
Proof. intros -> H F. eapply reads_bind0; [now apply reads_assert|now apply H]. Qed.
Lemma RL_guard {A} c e (k : unit -> reader A) L x : c = true -> RL (k tt) L x -> RL (rbind (rguard c e) k) L x.
Proof. intros -> H F. eapply reads_bind0; [now apply reads_guard|now apply H]. Qed.
Lemma RL_lift {A B} (o : res B) a (k : B -> reader A) L x : o = Ok a -> RL (k a) L x -> RL (rbind (rlift o) k) L x.
Proof. intros E H F. eapply reads_bind0; [apply reads_lift; exact E|now apply H]. Qed.
Lemma RL_sub {A B} (r : reader A) (k : A -> reader B) L1 L2 x y : RL r L1 x -> RL (k x) L2 y -> RL (rbind r k) (L1 ++ L2) y.
Proof.
  intros H1 H2 F. rewrite fits_app in F. apply andb_prop in F. destruct F. rewrite enc_app.
  eapply reads_bind; [now apply H1|now apply H2].
Qed.
Lemma RL_ret_l {A B} (a : A) (k : A -> reader B) L x : RL (k a) L x -> RL (rbind (rret a) k) L x.
Proof. intros H F. eapply reads_bind0; [apply reads_ret|now apply H]. Qed.
Lemma reads_ext {A} (r r' : reader A) l x : (forall b, r b = r' b) -> reads r l x -> reads r' l x.
Proof. intros E H b rest W R. rewrite <- E. eapply H; eassumption. Qed.
Lemma RL_assoc {A B C} (r : reader A) (k : A -> reader B) (k2 : B -> reader C) L x :
  RL (rbind r (fun a => rbind (k a) k2)) L x -> RL (rbind (rbind r k) k2) L x.
Proof.
  intros H F. eapply reads_ext; [|apply H, F]. intros b. unfold rbind. destruct (r b) as [[a b']| |]; reflexivity.
Qed.
Lemma RL_ret_r {A} (r : reader A) L x : RL (rbind r (fun a => rret a)) L x -> RL r L x.
Proof. intros H F. eapply reads_ext; [|apply H, F]. intros b. unfold rbind, rret. destruct (r b) as [[a b']| |]; reflexivity. Qed.

Lemma carries_intro {A} w (r : reader A) y L : fits L = true -> WL w L -> RL r L y -> carries w r y L.
Proof. intros F HW HR. split; [now apply HW|now apply HR]. Qed.

(** One step of a writer or reader; conditions that compute are discharged. *)
Ltac bsolve := first [ reflexivity | assumption | apply Bool.eqb_reflx | (apply N.ltb_lt; lia) | lia ].
Ltac wl1 :=
  lazymatch goal with
  | |- WL wret [] => apply WL_ret
  | |- WL (wthen (wfield _ _) _) ((_, _) :: _) => apply WL_field; [lia|]
  | |- WL (wthen (wflag _) _) (_ :: _) => apply WL_flag
  | |- WL (wthen (wassert _) _) _ => apply WL_assert; [bsolve|]
  | |- WL (wthen (wguard _ _) _) _ => apply WL_guard; [bsolve|]
  | |- WL (wthen wret _) _ => apply WL_ret_l
  | |- WL (wthen (wthen _ _) _) _ => apply WL_assoc
  | |- WL (wflag _) _ => apply WL_ret_r
  | |- WL (wfield _ _) _ => apply WL_ret_r
  | |- WL (wassert _) _ => apply WL_ret_r
  end.
Ltac rl1 :=
  lazymatch goal with
  | |- RL (rret _) [] _ => first [apply RL_ret | apply RL_ret_eq; try reflexivity]
  | |- RL (rbind (rfield _) _) ((_, _) :: _) _ => apply RL_field; [lia|intros ?B]
  | |- RL (rbind rflag _) (fl _ :: _) _ => apply RL_flag
  | |- RL (rbind (rfield _) _) (fl ?v :: _) _ => change (fl v) with (N.b2n v, 1%nat); cbn [N.b2n]; apply RL_field; [lia|intros ?B]
  | |- RL (rbind rflag _) ((N.b2n _, 1%nat) :: _) _ => apply RL_flag
  | |- RL (rbind rflag _) ((0, 1%nat) :: _) _ => apply RL_flag0
  | |- RL (rbind rflag _) ((1, 1%nat) :: _) _ => apply RL_flag1
  | |- RL (rbind (rassert _) _) _ _ => apply RL_assert; [bsolve|]
  | |- RL (rbind (rguard _ _) _) _ _ => apply RL_guard; [bsolve|]
  | |- RL (rbind (rret _) _) _ _ => apply RL_ret_l
  | |- RL (rbind (rbind _ _) _) _ _ => apply RL_assoc
  | |- RL (rfield _) _ _ => apply RL_ret_r
  | |- RL rflag _ _ => apply RL_ret_r
  end.
Ltac wl := repeat wl1.
Ltac rl := repeat rl1.
