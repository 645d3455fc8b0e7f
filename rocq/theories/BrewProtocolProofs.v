(** Proofs about the messages of the network protocol. *)
From Verif Require Import Base CmceFields BrewProtocol BrewProtocolSpec.
Open Scope N_scope.

(** ** Numbers *)
Definition le_val (l : list N) : N := fold_right (fun b v => b + 256 * v) 0 l.
Lemma little_iff l v : little l v <-> Forall byte l /\ v = le_val l.
Proof.
  revert v. induction l as [|b t IH]; intros v; cbn [little le_val fold_right].
  - split; [intros ->; split; [constructor|reflexivity]|tauto].
  - split.
    + intros (w & B & -> & L). apply IH in L as [F ->]. split; [constructor; assumption|reflexivity].
    + intros [F ->]. inversion F; subst. exists (le_val t). split; [assumption|split; [reflexivity|]]. apply IH. auto.
Qed.
Lemma num_le_iff n l v : num_le n l v <-> length l = n /\ Forall byte l /\ v = le_val l.
Proof. unfold num_le. rewrite little_iff. tauto. Qed.
Lemma uuid_le l : uuid_from_bytes l = le_val (rev l).
Proof.
  unfold uuid_from_bytes, le_val. rewrite <- fold_left_rev_right.
  induction (rev l) as [|b t IH]; cbn [fold_right]; [reflexivity|]. rewrite IH. lia.
Qed.
Lemma num_be_iff n l v : num_be n l v <-> length l = n /\ Forall byte l /\ v = uuid_from_bytes l.
Proof.
  unfold num_be, big. rewrite little_iff, uuid_le. 
  split; intros (A & B & C); (split; [exact A|split; [|exact C]]).
  - rewrite <- (rev_involutive l). apply Forall_rev. exact B.
  - apply Forall_rev. exact B.
Qed.
Lemma little_le_bytes n v : v < 256 ^ N.of_nat n -> num_le n (le_bytes n v) v.
Proof.
  revert v. induction n as [|n IH]; intros v V.
  - split; [reflexivity|]. cbn [le_bytes little]. change (256 ^ N.of_nat 0) with 1 in V. lia.
  - rewrite Nat2N.inj_succ, N.pow_succ_r' in V. cbn [le_bytes].
    destruct (IH (v / 256)) as [L A]; [apply N.div_lt_upper_bound; lia|].
    split; [cbn [length]; now rewrite L|]. cbn [little]. exists (v / 256). split; [lia|]. split; [|exact A]. lia.
Qed.
Lemma rev_be_bytes n v : rev (be_bytes n v) = le_bytes n v.
Proof. revert v. induction n as [|n IH]; intros v; cbn [be_bytes le_bytes]; [reflexivity|]. rewrite rev_app_distr, IH. reflexivity. Qed.
Lemma big_be_bytes n v : v < 256 ^ N.of_nat n -> num_be n (be_bytes n v) v.
Proof.
  intros V. destruct (little_le_bytes n v V) as [L A]. unfold num_be, big. rewrite rev_be_bytes. split; [|exact A].
  rewrite <- rev_length, rev_be_bytes. exact L.
Qed.

(** ** Reading a number *)
Lemma at_in pre b post off : length pre = off -> at_ (pre ++ b :: post) off = Ok b.
Proof. intros <-. unfold at_. rewrite nth_error_app2 by lia. rewrite Nat.sub_diag. reflexivity. Qed.
Lemma read_at a : forall n pre post off, length pre = off -> length a = n -> read_le n (pre ++ a ++ post) off = Ok (le_val a).
Proof.
  induction a as [|b a IH]; intros n pre post off P A; cbn [length] in A; subst n; cbn [read_le le_val fold_right]; [reflexivity|].
  rewrite <- app_comm_cons, (at_in pre b (a ++ post) off P). cbn [bind].
  replace (pre ++ b :: a ++ post) with ((pre ++ [b]) ++ a ++ post) by (now rewrite <- app_assoc).
  rewrite (IH (length a) (pre ++ [b]) post (S off)); [reflexivity| |reflexivity].
  rewrite app_length. cbn [length]. lia.
Qed.
Lemma cut {A} n (l : list A) : (n <= length l)%nat -> exists a b, l = a ++ b /\ length a = n.
Proof. intros H. exists (firstn n l), (skipn n l). split; [now rewrite firstn_skipn|]. now apply firstn_length_le. Qed.

(** ** Subscriber messages *)
Lemma read_groups_spec fuel : forall pre grp off, length pre = off -> (length grp <= fuel)%nat ->
  exists body rest gs, grp = body ++ rest /\ (length rest < 4)%nat /\
    read_groups fuel (pre ++ grp) off = Ok gs /\ (Forall byte grp -> numbers body gs).
Proof.
  induction fuel as [|fuel IH]; intros pre grp off P F.
  - destruct grp; [|cbn in F; lia]. exists [], [], []. cbn [read_groups].
    replace (off + 4 <=? length (pre ++ []))%nat with false by (symmetry; apply Nat.leb_gt; rewrite app_length; cbn [length]; lia).
    split; [reflexivity|]. split; [cbn; lia|]. split; [reflexivity|]. intros _. constructor.
  - cbn [read_groups]. destruct (off + 4 <=? length (pre ++ grp))%nat eqn:E.
    + apply Nat.leb_le in E. rewrite app_length in E. destruct (cut 4 grp) as (a & t & -> & A); [lia|].
      rewrite (read_at a 4 pre t off P A). cbn [bind].
      rewrite app_length in F.
      destruct (IH (pre ++ a) t (off + 4)%nat) as (body & rest & gs & -> & R & G & Nb); [rewrite app_length; lia|lia|].
      replace (pre ++ a ++ body ++ rest) with ((pre ++ a) ++ body ++ rest) by (now rewrite <- app_assoc).
      rewrite G. cbn [bind]. exists (a ++ body), rest, (le_val a :: gs).
      split; [now rewrite <- app_assoc|]. split; [exact R|]. split; [reflexivity|].
      intros B. apply Forall_app in B as [Ba Bt]. constructor; [|auto]. apply num_le_iff. auto.
    + apply Nat.leb_gt in E. rewrite app_length in E. exists [], grp, [].
      split; [reflexivity|]. split; [lia|]. split; [reflexivity|]. intros _. constructor.
Qed.
Lemma numbers_length a g : numbers a g -> (length a = 4 * length g)%nat.
Proof. induction 1 as [|l v t w [L _] _ IH]; [reflexivity|]. rewrite app_length. cbn [length]. lia. Qed.
Lemma read_groups_of grp gs rest : numbers grp gs -> forall fuel pre off, length pre = off -> (length (grp ++ rest) <= fuel)%nat -> (length rest < 4)%nat ->
  read_groups fuel (pre ++ grp ++ rest) off = Ok gs.
Proof.
  induction 1 as [|l v t w L Nt IH]; intros fuel pre off P F R.
  - assert ((off + 4 <=? length (pre ++ [] ++ rest))%nat = false) as E.
    { apply Nat.leb_gt. rewrite app_length. cbn [app]. lia. }
    destruct fuel; cbn [read_groups]; rewrite E; reflexivity.
  - apply num_le_iff in L as (L4 & B & ->).
    rewrite <- app_assoc in *. rewrite app_length in F.
    destruct fuel as [|fuel]; [lia|]. cbn [read_groups].
    replace (off + 4 <=? length (pre ++ l ++ t ++ rest))%nat with true by (symmetry; apply Nat.leb_le; rewrite !app_length; lia).
    rewrite (read_at l 4 pre (t ++ rest) off P L4). cbn [bind].
    replace (pre ++ l ++ t ++ rest) with ((pre ++ l) ++ t ++ rest) by (now rewrite <- app_assoc).
    rewrite (IH fuel (pre ++ l) (off + 4)%nat); [reflexivity|rewrite app_length; lia|lia|exact R].
Qed.

(** ** Identifiers *)
Lemma read_uuid_of k t id post : length id = 16%nat -> read_uuid (k :: t :: id ++ post) = Ok (inl (uuid_from_bytes id)).
Proof.
  intros L. unfold read_uuid. cbn [length]. rewrite app_length, L.
  replace (18 <=? S (S (16 + length post)))%nat with true by (symmetry; apply Nat.leb_le; lia).
  cbn [skipn]. rewrite firstn_app, L, Nat.sub_diag, firstn_O, app_nil_r, firstn_all2 by lia. rewrite L. reflexivity.
Qed.
Lemma from_of pre l n : length pre = n -> from_ (pre ++ l) n = Ok l.
Proof.
  intros <-. unfold from_. rewrite app_length. replace (_ <=? _)%nat with true by (symmetry; apply Nat.leb_le; lia).
  rewrite skipn_app, skipn_all, Nat.sub_diag. reflexivity.
Qed.

(** ** UTF-8 *)
Lemma utf8_ok_app a l : (forall t, utf8_ok (a ++ t) = utf8_ok t) -> utf8_ok (a ++ l) = utf8_ok l.
Proof. auto. Qed.
Ltac bools := repeat match goal with
  | |- context [?a <? ?b] => first [replace (a <? b) with true by (symmetry; apply N.ltb_lt; lia) | replace (a <? b) with false by (symmetry; apply N.ltb_ge; lia)]
  | |- context [?a <=? ?b] => first [replace (a <=? b) with true by (symmetry; apply N.leb_le; lia) | replace (a <=? b) with false by (symmetry; apply N.leb_gt; lia)]
  | |- context [?a =? ?b] => first [replace (a =? b) with true by (symmetry; apply N.eqb_eq; lia) | replace (a =? b) with false by (symmetry; apply N.eqb_neq; lia)]
  end.
Lemma utf8_ok_char c t : scalar c -> utf8_ok (utf8 c ++ t) = utf8_ok t.
Proof.
  intros S. unfold scalar in S. unfold utf8.
  destruct (c <? 0x80) eqn:E1; [cbn [app utf8_ok]; change 0x80 with 128 in E1; now rewrite E1|]. apply N.ltb_ge in E1.
  destruct (c <? 0x800) eqn:E2.
  { apply N.ltb_lt in E2. cbn [app utf8_ok]. unfold cont.
    assert (194 <= 0xC0 + c / 64 <= 223) as A by lia. assert (128 <= 0x80 + c mod 64 <= 191) as B by lia.
    revert A B. generalize (0xC0 + c / 64) (0x80 + c mod 64). intros a b A B. bools. reflexivity. }
  apply N.ltb_ge in E2. destruct (c <? 0x10000) eqn:E3.
  { apply N.ltb_lt in E3. cbn [app utf8_ok]. unfold cont.
    assert (224 <= 0xE0 + c / 4096 <= 239) as A by lia. assert (128 <= 0x80 + c / 64 mod 64 <= 191) as B by lia.
    assert (128 <= 0x80 + c mod 64 <= 191) as C by lia.
    assert (0xE0 + c / 4096 = 224 -> 160 <= 0x80 + c / 64 mod 64) as D by lia.
    assert (0xE0 + c / 4096 = 237 -> 0x80 + c / 64 mod 64 <= 159) as F by lia.
    revert A B C D F. generalize (0xE0 + c / 4096) (0x80 + c / 64 mod 64) (0x80 + c mod 64). intros a b d A B C D F.
    replace (a <? 128) with false by lia. replace ((194 <=? a) && (a <=? 223)) with false by lia.
    replace (((a =? 224) && (160 <=? b) && (b <=? 191)) || ((225 <=? a) && (a <=? 236) && ((128 <=? b) && (b <=? 191))) ||
      ((a =? 237) && (128 <=? b) && (b <=? 159)) || ((238 <=? a) && (a <=? 239) && ((128 <=? b) && (b <=? 191)))) with true by lia.
    replace ((128 <=? d) && (d <=? 191)) with true by lia. reflexivity. }
  apply N.ltb_ge in E3. cbn [app utf8_ok]. unfold cont.
  assert (240 <= 0xF0 + c / 262144 <= 244) as A by lia. assert (128 <= 0x80 + c / 4096 mod 64 <= 191) as B by lia.
  assert (128 <= 0x80 + c / 64 mod 64 <= 191) as C by lia. assert (128 <= 0x80 + c mod 64 <= 191) as C2 by lia.
  assert (0xF0 + c / 262144 = 240 -> 144 <= 0x80 + c / 4096 mod 64) as D by lia.
  assert (0xF0 + c / 262144 = 244 -> 0x80 + c / 4096 mod 64 <= 143) as F by lia.
  revert A B C C2 D F. generalize (0xF0 + c / 262144) (0x80 + c / 4096 mod 64) (0x80 + c / 64 mod 64) (0x80 + c mod 64). intros a b d e A B C C2 D F.
  replace (a <? 128) with false by lia. replace ((194 <=? a) && (a <=? 223)) with false by lia.
  replace (((a =? 224) && (160 <=? b) && (b <=? 191)) || ((225 <=? a) && (a <=? 236) && ((128 <=? b) && (b <=? 191))) ||
      ((a =? 237) && (128 <=? b) && (b <=? 159)) || ((238 <=? a) && (a <=? 239) && ((128 <=? b) && (b <=? 191)))) with false by lia.
  replace ((((a =? 240) && (144 <=? b) && (b <=? 191)) || ((241 <=? a) && (a <=? 243) && ((128 <=? b) && (b <=? 191))) ||
    ((a =? 244) && (128 <=? b) && (b <=? 143))) && ((128 <=? d) && (d <=? 191)) && ((128 <=? e) && (e <=? 191))) with true by lia.
  reflexivity.
Qed.
Lemma utf8_ok_text l : text l -> utf8_ok l = true.
Proof.
  intros (cs & S & ->). induction S as [|c cs Sc _ IH]; [reflexivity|]. cbn [flat_map]. rewrite utf8_ok_char by exact Sc. exact IH.
Qed.
Lemma text_cons c l : scalar c -> text l -> text (utf8 c ++ l).
Proof. intros S (cs & F & ->). exists (c :: cs). split; [constructor; assumption|reflexivity]. Qed.
Lemma utf8_1 a : a < 128 -> utf8 a = [a].
Proof. intros A. unfold utf8. change 0x80 with 128. apply N.ltb_lt in A. now rewrite A. Qed.
Lemma utf8_2 a b : 194 <= a <= 223 -> 128 <= b <= 191 -> utf8 ((a - 192) * 64 + (b - 128)) = [a; b].
Proof.
  intros A B. unfold utf8. set (c := (a - 192) * 64 + (b - 128)). assert (128 <= c < 2048) as C by (unfold c; lia).
  replace (c <? 0x80) with false by lia. replace (c <? 0x800) with true by lia.
  assert (c / 64 = a - 192) as -> by (unfold c; lia). assert (c mod 64 = b - 128) as -> by (unfold c; lia).
  f_equal; [lia|]. f_equal. lia.
Qed.
Lemma utf8_3 a b d : 224 <= a <= 239 -> 128 <= b <= 191 -> 128 <= d <= 191 -> (a = 224 -> 160 <= b) ->
  utf8 ((a - 224) * 4096 + (b - 128) * 64 + (d - 128)) = [a; b; d].
Proof.
  intros A B D E. unfold utf8. set (c := (a - 224) * 4096 + (b - 128) * 64 + (d - 128)). assert (2048 <= c < 65536) as C by (unfold c; lia).
  replace (c <? 0x80) with false by lia. replace (c <? 0x800) with false by lia. replace (c <? 0x10000) with true by lia.
  assert (c / 4096 = a - 224) as -> by (unfold c; lia). assert (c / 64 mod 64 = b - 128) as -> by (unfold c; lia).
  assert (c mod 64 = d - 128) as -> by (unfold c; lia).
  f_equal; [lia|]. f_equal; [lia|]. f_equal. lia.
Qed.
Lemma utf8_4 a b d e : 240 <= a <= 244 -> 128 <= b <= 191 -> 128 <= d <= 191 -> 128 <= e <= 191 -> (a = 240 -> 144 <= b) ->
  utf8 ((a - 240) * 262144 + (b - 128) * 4096 + (d - 128) * 64 + (e - 128)) = [a; b; d; e].
Proof.
  intros A B D E G. unfold utf8. set (c := (a - 240) * 262144 + (b - 128) * 4096 + (d - 128) * 64 + (e - 128)). assert (65536 <= c) as C by (unfold c; lia).
  replace (c <? 0x80) with false by lia. replace (c <? 0x800) with false by lia. replace (c <? 0x10000) with false by lia.
  assert (c / 262144 = a - 240) as -> by (unfold c; lia). assert (c / 4096 mod 64 = b - 128) as -> by (unfold c; lia).
  assert (c / 64 mod 64 = d - 128) as -> by (unfold c; lia). assert (c mod 64 = e - 128) as -> by (unfold c; lia).
  f_equal; [lia|]. f_equal; [lia|]. f_equal; [lia|]. f_equal. lia.
Qed.
Lemma text_of n : forall l, (length l <= n)%nat -> utf8_ok l = true -> text l.
Proof.
  induction n as [|n IH]; intros l L U.
  - destruct l; [|cbn in L; lia]. exists []. auto.
  - destruct l as [|a t]; [exists []; auto|]. cbn [length] in L. cbn [utf8_ok] in U. unfold cont in U.
    destruct (a <? 128) eqn:E1.
    { apply N.ltb_lt in E1. change (a :: t) with ([a] ++ t). rewrite <- (utf8_1 a E1). apply text_cons; [unfold scalar; lia|]. apply IH; [lia|exact U]. }
    destruct t as [|b t]; [discriminate|]. cbn [length] in L.
    destruct ((194 <=? a) && (a <=? 223)) eqn:E2.
    { apply andb_true_iff in U as [B U]. change (a :: b :: t) with ([a; b] ++ t).
      rewrite <- (utf8_2 a b) by lia. apply text_cons; [unfold scalar; lia|]. apply IH; [lia|exact U]. }
    destruct t as [|d t]; [discriminate|]. cbn [length] in L.
    match type of U with (if ?c then _ else _) = _ => destruct c eqn:E3 end.
    { apply andb_true_iff in U as [B U]. change (a :: b :: d :: t) with ([a; b; d] ++ t).
      rewrite <- (utf8_3 a b d) by lia. apply text_cons; [unfold scalar; lia|]. apply IH; [lia|exact U]. }
    destruct t as [|e t]; [discriminate|]. cbn [length] in L.
    apply andb_true_iff in U as [E4 U]. change (a :: b :: d :: e :: t) with ([a; b; d; e] ++ t).
    rewrite <- (utf8_4 a b d e) by lia. apply text_cons; [unfold scalar; lia|]. apply IH; [lia|exact U].
Qed.
Lemma utf8_ok_iff l : utf8_ok l = true <-> text l.
Proof. split; [apply (text_of (length l)); lia|apply utf8_ok_text]. Qed.

Lemma before_nul_of l rest : ~ In 0 l -> rest = [] \/ (exists t, rest = 0 :: t) -> before_nul (l ++ rest) = l.
Proof.
  intros Z R. induction l as [|b l IH].
  - destruct R as [->|[t ->]]; reflexivity.
  - cbn [app before_nul]. replace (b =? 0) with false; [f_equal; apply IH; intros H; apply Z; now right|].
    symmetry. apply N.eqb_neq. intros ->. apply Z. now left.
Qed.
Lemma before_nul_split l : exists rest, l = before_nul l ++ rest /\ ~ In 0 (before_nul l) /\ (rest = [] \/ (exists t, rest = 0 :: t)).
Proof.
  induction l as [|b l (rest & E & Z & R)].
  - exists []. cbn. auto.
  - cbn [before_nul]. destruct (b =? 0) eqn:B.
    + apply N.eqb_eq in B as ->. exists (0 :: l). cbn. split; [reflexivity|]. split; [tauto|]. right. now exists l.
    + apply N.eqb_neq in B. exists rest. cbn [app]. split; [congruence|]. split; [|exact R]. cbn [In]. intros [H|H]; [congruence|auto].
Qed.

(** ** Messages *)
Lemma payload_total st l : exists r, parse_payload st l = Ok r /\
  (Forall byte l -> match r with inl p => payload_bytes st l p | inr e => forall p, ~ payload_bytes st l p end).
Proof.
  unfold parse_payload.
  destruct (st =? 2) eqn:E2.
  { apply N.eqb_eq in E2 as ->. destruct (length l <? 12)%nat eqn:L.
    - apply Nat.ltb_lt in L. eexists. split; [reflexivity|]. intros _ p H. inversion H; subst; try (cbn in *; intuition congruence).
      repeat match goal with H : num_le _ _ _ |- _ => destruct H end. rewrite !app_length in L. cbn [length] in L. lia.
    - apply Nat.ltb_ge in L.
      destruct (cut 4 l) as (s & l1 & -> & S); [lia|]. rewrite app_length in L.
      destruct (cut 4 l1) as (d & l2 & -> & D); [lia|]. rewrite app_length in L.
      destruct l2 as [|p [|a l2]]; cbn [length] in L; try lia.
      destruct (cut 2 l2) as (v & rest & -> & V); [lia|].
      rewrite (read_at s 4 [] _ 0%nat eq_refl S : read_le 4 (s ++ d ++ p :: a :: v ++ rest) 0 = _). cbn [bind].
      rewrite (read_at d 4 s _ 4%nat S D). cbn [bind].
      replace (s ++ d ++ p :: a :: v ++ rest) with ((s ++ d) ++ p :: a :: v ++ rest) by (now rewrite <- app_assoc).
      rewrite (at_in (s ++ d) p _ 8%nat) by (rewrite app_length; lia). cbn [bind].
      replace ((s ++ d) ++ p :: a :: v ++ rest) with ((s ++ d ++ [p]) ++ a :: v ++ rest) by (now rewrite <- !app_assoc).
      rewrite (at_in (s ++ d ++ [p]) a _ 9%nat) by (rewrite !app_length; cbn [length]; lia). cbn [bind].
      replace ((s ++ d ++ [p]) ++ a :: v ++ rest) with ((s ++ d ++ [p; a]) ++ v ++ rest) by (now rewrite <- !app_assoc).
      rewrite (read_at v 2 (s ++ d ++ [p; a]) rest 10%nat) by (rewrite ?app_length; cbn [length]; lia). cbn [bind].
      eexists. split; [reflexivity|]. intros F. rewrite <- !app_assoc in F |- *. cbn [app] in F |- *.
      apply Forall_app in F as [Fs F]. apply Forall_app in F as [Fd F]. inversion F as [|? ? Fp F1]; subst. inversion F1 as [|? ? Fa F2]; subst.
      apply Forall_app in F2 as [Fv _].
      change (p :: a :: v ++ rest) with ([p; a] ++ v ++ rest).
      constructor; try assumption; apply num_le_iff; auto. }
  apply N.eqb_neq in E2.
  destruct ((st =? 3) || (st =? 6) || (st =? 10)) eqn:E3.
  { assert (In st [3; 6; 10]) as I by (cbn; lia). destruct l as [|c l]; cbn [length Nat.eqb].
    - eexists. split; [reflexivity|]. intros _ p H. inversion H; subst; cbn in *; lia || congruence || tauto.
    - rewrite (at_in [] c l 0%nat eq_refl : at_ (c :: l) 0 = Ok c). cbn [bind]. eexists. split; [reflexivity|].
      intros F. inversion F; subst. constructor; assumption. }
  destruct ((st =? 5) || (st =? 7)) eqn:E4.
  { eexists. split; [reflexivity|]. intros _. constructor. cbn. lia. }
  destruct (st =? 11) eqn:E5.
  { apply N.eqb_eq in E5 as ->. destruct (length l <? 8)%nat eqn:L.
    - apply Nat.ltb_lt in L. eexists. split; [reflexivity|]. intros _ p H. inversion H; subst; try (cbn in *; intuition congruence).
      repeat match goal with H : num_le _ _ _ |- _ => destruct H end. rewrite !app_length in L. lia.
    - apply Nat.ltb_ge in L.
      destruct (cut 4 l) as (s & l1 & -> & S); [lia|]. rewrite app_length in L.
      destruct (cut 4 l1) as (d & rest & -> & D); [lia|].
      rewrite (read_at s 4 [] _ 0%nat eq_refl S : read_le 4 (s ++ d ++ rest) 0 = _). cbn [bind].
      rewrite (read_at d 4 s _ 4%nat S D). cbn [bind]. eexists. split; [reflexivity|]. intros F.
      apply Forall_app in F as [Fs F]. apply Forall_app in F as [Fd _]. constructor; apply num_le_iff; auto. }
  apply N.eqb_neq in E5. eexists. split; [reflexivity|]. intros _. constructor. cbn. lia.
Qed.

Lemma little_fun l v w : little l v -> little l w -> v = w.
Proof. rewrite !little_iff. intros [_ ->] [_ ->]. reflexivity. Qed.
Lemma app_cut {A} (a b a' b' : list A) : length a = length a' -> a ++ b = a' ++ b' -> a = a' /\ b = b'.
Proof.
  revert a'. induction a as [|x a IH]; intros [|y a'] L E; cbn in L; try lia; [auto|].
  cbn in E. injection E as -> E. destruct (IH a' ltac:(lia) E) as [-> ->]. auto.
Qed.
Lemma numbers_fun a g : numbers a g -> forall r a' g' r', (length r < 4)%nat -> (length r' < 4)%nat -> numbers a' g' -> a ++ r = a' ++ r' -> g = g'.
Proof.
  induction 1 as [|l v t w L Nt IH]; intros r a' g' r' R R' N' E.
  - inversion N' as [|l' v' t' w' [L' _]]; subst; [reflexivity|]. apply (f_equal (@length N)) in E. rewrite !app_length in E. cbn [length] in E. lia.
  - inversion N' as [|l' v' t' w' L' Nt']; subst.
    + apply (f_equal (@length N)) in E. destruct L as [L _]. rewrite !app_length in E. cbn [length] in E. lia.
    + rewrite <- !app_assoc in E. destruct L as [L V], L' as [L' V']. apply app_cut in E as [-> E]; [|lia].
      f_equal; [eapply little_fun; eassumption|]. exact (IH _ _ _ _ R R' Nt' E).
Qed.
Lemma payload_fun st l p q : payload_bytes st l p -> payload_bytes st l q -> p = q.
Proof.
  intros H K. destruct H; inversion K; subst; try reflexivity; cbn [In] in *; try lia; try tauto; try congruence;
    unfold num_le in *;
    repeat match goal with
    | H : _ /\ _ |- _ => destruct H
    | H : _ ++ _ = _ ++ _ |- _ => apply app_cut in H as [? ?]; [subst|congruence]
    | H : _ :: _ = _ :: _ |- _ => injection H as ? ?; subst
    end.
  all: repeat match goal with
    | H : little ?l ?v, K : little ?l ?w |- _ => assert (v = w) as -> by (eapply little_fun; eassumption); clear H
    end; reflexivity.
Qed.
Lemma bytes_fun data m m' : bytes data m -> bytes data m' -> m = m'.
Proof.
  intros H K. destruct H; inversion K; subst; unfold num_be, big, num_le in *;
    repeat match goal with
    | H : _ /\ _ |- _ => destruct H
    | H : (_ ++ _) ++ _ = _ |- _ => rewrite <- app_assoc in H
    | H : _ = (_ ++ _) ++ _ |- _ => rewrite <- app_assoc in H
    end; try reflexivity.
  - repeat match goal with H : ?a ++ _ = ?b ++ _, L : length ?a = ?n, M : length ?b = ?n |- _ => apply app_cut in H as [? ?]; [subst|congruence] end.
    match goal with A : numbers ?a ?g, B : numbers ?b ?h, E : _ ++ _ = _ ++ _ |- _ =>
      assert (g = h) as -> by (first [eapply (numbers_fun a g A _ b h _); [| |exact B|exact E]; assumption | symmetry; eapply (numbers_fun b h B _ a g _); [| |exact A|exact E]; assumption]) end.
    repeat match goal with
    | H : little ?l ?v, K : little ?l ?w |- _ => assert (v = w) as -> by (eapply little_fun; eassumption); clear H
    end; reflexivity.
  - match goal with H : ?a ++ _ = ?b ++ _ |- _ => apply app_cut in H as [? ?]; [subst|congruence] end.
    match goal with H : payload_bytes _ _ ?p, K : payload_bytes _ _ ?q |- _ => assert (p = q) as -> by (eapply payload_fun; eassumption) end.
    do 2 f_equal. eapply little_fun; eassumption.
  - repeat match goal with H : ?a ++ _ = ?b ++ _ |- _ => apply app_cut in H as [? ?]; [subst|congruence] end.
    repeat match goal with
    | H : little ?l ?v, K : little ?l ?w |- _ => assert (v = w) as -> by (eapply little_fun; eassumption); clear H
    end; reflexivity.
  - match goal with E : ?a ++ ?r = ?b ++ ?s |- _ => assert (before_nul (a ++ r) = before_nul (b ++ s)) as E1 by congruence end.
    rewrite !before_nul_of in E1 by assumption. congruence.
Qed.

(** Any bytes give a message they are, or an error and they are none. *)
Lemma parse_total data : exists r, parse_brew_message data = Ok r /\
  (Forall byte data -> match r with inl m => bytes data m | inr e => forall m, ~ bytes data m end).
Proof.
  unfold parse_brew_message. destruct data as [|k [|ty data]]; cbn [length Nat.ltb Nat.leb].
  1-2: eexists; split; [reflexivity|]; intros _ m H; inversion H.
  replace (S (S (length data)) <? 2)%nat with false by (symmetry; apply Nat.ltb_ge; lia).
  change (at_ (k :: ty :: data) 0) with (Ok k). change (at_ (k :: ty :: data) 1) with (Ok ty). cbn [bind].
  destruct (k =? 240) eqn:E0.
  { apply N.eqb_eq in E0 as ->. unfold parse_subscriber. destruct (length (240%N :: ty :: data) <? 18)%nat eqn:L.
    - apply Nat.ltb_lt in L. eexists. split; [reflexivity|]. intros _ m H. inversion H; subst.
      repeat match goal with H : num_le _ _ _ |- _ => destruct H end. cbn [length] in L. rewrite !app_length in L. lia.
    - apply Nat.ltb_ge in L. cbn [length] in L.
      destruct (cut 4 data) as (a & l1 & -> & A); [lia|]. rewrite app_length in L.
      destruct (cut 8 l1) as (b & l2 & -> & B); [lia|]. rewrite app_length in L.
      destruct (cut 4 l2) as (c & grp & -> & C); [lia|].
      rewrite (read_at a 4 [240; ty] (b ++ c ++ grp) 2%nat eq_refl A : read_le 4 (240 :: ty :: a ++ b ++ c ++ grp) 2 = _). cbn [bind].
      assert (read_le 8 (240 :: ty :: a ++ b ++ c ++ grp) 6 = Ok (le_val b)) as ->.
      { change (240 :: ty :: a ++ b ++ c ++ grp) with ((240 :: ty :: a) ++ b ++ c ++ grp). apply read_at; [cbn [length]; lia|exact B]. }
      cbn [bind].
      assert (read_le 4 (240 :: ty :: a ++ b ++ c ++ grp) 14 = Ok (le_val c)) as ->.
      { replace (240 :: ty :: a ++ b ++ c ++ grp) with ((240 :: ty :: a ++ b) ++ c ++ grp) by (cbn [app]; now rewrite <- app_assoc).
        apply read_at; [cbn [length]; rewrite app_length; lia|exact C]. }
      cbn [bind].
      destruct (read_groups_spec (length (240 :: ty :: a ++ b ++ c ++ grp)) (240 :: ty :: a ++ b ++ c) grp 18%nat) as (body & rest & gs & -> & R & G & Nb).
      { cbn [length]. rewrite !app_length. lia. }
      { cbn [length]. rewrite !app_length. lia. }
      replace ((240 :: ty :: a ++ b ++ c) ++ body ++ rest) with (240 :: ty :: a ++ b ++ c ++ body ++ rest) in G by (cbn [app]; now rewrite <- !app_assoc).
      rewrite G. cbn [bind]. eexists. split; [reflexivity|]. intros F.
      inversion F as [|? ? _ F1]; subst. inversion F1 as [|? ? _ F2]; subst.
      apply Forall_app in F2 as [Fa F2]. apply Forall_app in F2 as [Fb F2]. apply Forall_app in F2 as [Fc F2].
      constructor; try (apply num_le_iff; auto); [apply Nb; exact F2|exact R]. }
  apply N.eqb_neq in E0. destruct (k =? 241) eqn:E1.
  { apply N.eqb_eq in E1 as ->. unfold parse_call_control. destruct (length (241%N :: ty :: data) <? 18)%nat eqn:L.
    - apply Nat.ltb_lt in L. eexists. split; [reflexivity|]. intros _ m H. inversion H; subst.
      repeat match goal with H : num_be _ _ _ |- _ => destruct H end. cbn [length] in L. rewrite !app_length in L. lia.
    - apply Nat.ltb_ge in L. cbn [length] in L. destruct (cut 16 data) as (id & l & -> & I); [lia|].
      rewrite (read_uuid_of 241 ty id l I). cbn [bind].
      change (241 :: ty :: id ++ l) with ((241 :: ty :: id) ++ l). rewrite (from_of (241 :: ty :: id) l 18) by (cbn [length]; lia). cbn [bind].
      destruct (payload_total ty l) as (r & -> & S). cbn [bind]. eexists. split; [reflexivity|]. intros F.
      inversion F as [|? ? _ F1]; subst. inversion F1 as [|? ? _ F2]; subst. apply Forall_app in F2 as [Fi Fl]. specialize (S Fl).
      destruct r as [p|e].
      + apply b_call; [apply num_be_iff; auto|exact S].
      + intros m H. inversion H as [|st id2 id' l2 p Hi Hp| | |]; subst. destruct Hi as [Li _].
        match goal with E : _ ++ _ = _ ++ _ |- _ => apply app_cut in E as [-> ->]; [|congruence] end. apply (S p). exact Hp. }
  apply N.eqb_neq in E1. destruct (k =? 242) eqn:E2.
  { apply N.eqb_eq in E2 as ->. unfold parse_frame. destruct (length (242%N :: ty :: data) <? 20)%nat eqn:L.
    - apply Nat.ltb_lt in L. eexists. split; [reflexivity|]. intros _ m H. inversion H; subst.
      repeat match goal with H : num_be _ _ _ |- _ => destruct H | H : num_le _ _ _ |- _ => destruct H end. cbn [length] in L. rewrite !app_length in L. lia.
    - apply Nat.ltb_ge in L. cbn [length] in L. destruct (cut 16 data) as (id & l & -> & I); [lia|]. rewrite app_length in L.
      destruct (cut 2 l) as (n & d & -> & Ln); [lia|].
      rewrite (read_uuid_of 242 ty id (n ++ d) I). cbn [bind].
      assert (read_le 2 (242 :: ty :: id ++ n ++ d) 18 = Ok (le_val n)) as ->.
      { change (242 :: ty :: id ++ n ++ d) with ((242 :: ty :: id) ++ n ++ d). apply read_at; [cbn [length]; lia|exact Ln]. }
      cbn [bind].
      replace (242 :: ty :: id ++ n ++ d) with ((242 :: ty :: id ++ n) ++ d) by (cbn [app]; now rewrite <- app_assoc).
      rewrite from_of by (cbn [length]; rewrite app_length; lia). cbn [bind]. eexists. split; [reflexivity|]. intros F.
      cbn [app] in F |- *. rewrite <- app_assoc in F |- *.
      inversion F as [|? ? _ F1]; subst. inversion F1 as [|? ? _ F2]; subst. apply Forall_app in F2 as [Fi F2]. apply Forall_app in F2 as [Fn _].
      apply b_frame; [apply num_be_iff|apply num_le_iff]; auto. }
  apply N.eqb_neq in E2. destruct (k =? 243) eqn:E3.
  { apply N.eqb_eq in E3 as ->. unfold parse_error. rewrite (from_of [243; ty] data 2 eq_refl : from_ (243 :: ty :: data) 2 = _). cbn [bind].
    eexists. split; [reflexivity|]. intros _. constructor. }
  apply N.eqb_neq in E3. destruct (k =? 244) eqn:E4.
  { apply N.eqb_eq in E4 as ->. unfold parse_service. rewrite (from_of [244; ty] data 2 eq_refl : from_ (244 :: ty :: data) 2 = _). cbn [bind].
    eexists. split; [reflexivity|]. intros _. destruct (before_nul_split data) as (rest & E & Z & R).
    destruct (utf8_ok (before_nul data)) eqn:U.
    - revert U Z E. generalize (before_nul data). intros l U Z ->. apply b_service; [now apply utf8_ok_iff|exact Z|exact R].
    - intros m H. inversion H as [| | | |ty' l rest' T Z' R']; subst. rewrite before_nul_of in U by assumption.
      apply utf8_ok_iff in T. congruence. }
  apply N.eqb_neq in E4. eexists. split; [reflexivity|]. intros _ m H. inversion H; subst; congruence.
Qed.

Theorem parse_iff data m : Forall byte data -> parse_brew_message data = Ok (inl m) <-> bytes data m.
Proof.
  intros F. destruct (parse_total data) as (r & E & S). specialize (S F). rewrite E. split.
  - intros [= ->]. exact S.
  - intros B. destruct r as [m'|e]; [|exfalso; exact (S m B)]. f_equal. f_equal. eapply bytes_fun; eassumption.
Qed.

(** ** What the builders build *)
Lemma numbers_of gs : Forall (fun g => g < 2^32) gs -> numbers (flat_map (le_bytes 4) gs) gs.
Proof. induction 1 as [|g gs G _ IH]; cbn [flat_map]; constructor; [apply little_le_bytes; exact G|exact IH]. Qed.

Definition u32 (v : N) := v < 2^32.
Definition u128 (v : N) := v < 2^128.
Definition clock (n : now) := now_secs n < 2^64 /\ now_nanos n < 2^32.
Lemma subscriber_build ty n issi gs : u32 issi -> clock n -> Forall u32 gs ->
  bytes (240 :: ty :: le_bytes 4 issi ++ le_bytes 8 (now_secs n) ++ le_bytes 4 (now_nanos n) ++ flat_map (le_bytes 4) gs)
    (BmSubscriber (mk_brew_subscriber ty issi (now_secs n) (now_nanos n) gs)).
Proof.
  intros I [S F] G. rewrite <- (app_nil_r (flat_map _ gs)).
  apply b_subscriber; try (apply little_le_bytes; assumption); [apply numbers_of; exact G|cbn; lia].
Qed.
Lemma subscriber_build0 ty n issi : u32 issi -> clock n ->
  bytes (240 :: ty :: le_bytes 4 issi ++ le_bytes 8 (now_secs n) ++ le_bytes 4 (now_nanos n))
    (BmSubscriber (mk_brew_subscriber ty issi (now_secs n) (now_nanos n) [])).
Proof. intros I C. generalize (subscriber_build ty n issi [] I C (Forall_nil _)). cbn [flat_map]. now rewrite app_nil_r. Qed.
Lemma group_tx_build u s d p v : u128 u -> u32 s -> u32 d -> byte p -> v < 2^16 ->
  bytes (build_group_tx u s d p v) (BmCallControl (mk_brew_call 2 u (BpGroupTx (mk_brew_group_tx s d p 0 v)))).
Proof.
  intros U S D P V. unfold build_group_tx. apply b_call; [apply big_be_bytes; exact U|].
  rewrite <- (app_nil_r (le_bytes 2 v)). apply pb_group_tx; try (apply little_le_bytes; assumption); [exact P|unfold byte; lia].
Qed.
Lemma frame_build ty u n data : u128 u -> n < 2^16 ->
  bytes (242 :: ty :: uuid_as_bytes u ++ le_bytes 2 n ++ data) (BmFrame (mk_brew_frame ty u n data)).
Proof. intros U V. apply b_frame; [apply big_be_bytes; exact U|apply little_le_bytes; exact V]. Qed.
Lemma group_idle_build u c : u128 u -> byte c -> bytes (build_group_idle u c) (BmCallControl (mk_brew_call 3 u (BpCause c))).
Proof. intros U C. apply b_call; [apply big_be_bytes; exact U|]. apply pb_cause; [cbn; auto|exact C]. Qed.
Lemma short_transfer_build u s d : u128 u -> u32 s -> u32 d -> bytes (build_short_transfer u s d) (BmCallControl (mk_brew_call 11 u (BpShortTransfer s d))).
Proof. intros U S D. apply b_call; [apply big_be_bytes; exact U|]. apply pb_short_transfer; apply little_le_bytes; assumption. Qed.

(** ** The list of subscribers as text *)
Lemma decimal_digits fuel v : Forall (fun d => 48 <= d <= 57) (decimal fuel v).
Proof.
  revert v. induction fuel as [|f IH]; intros v; cbn [decimal]; [constructor|].
  destruct (v <? 10) eqn:E; [apply N.ltb_lt in E; constructor; [lia|constructor]|]. apply Forall_app. split; [apply IH|].
  constructor; [lia|constructor].
Qed.
Lemma decimal_is fuel : forall v, v < 10 ^ N.of_nat fuel -> fuel <> O -> is_number (decimal fuel v) v.
Proof.
  induction fuel as [|f IH]; intros v V NZ; [congruence|]. split; [|split; [apply decimal_digits|]]; cbn [decimal]; destruct (v <? 10) eqn:E.
  - discriminate.
  - intros H. apply app_eq_nil in H as [_ H]. discriminate.
  - apply N.ltb_lt in E. split; [unfold digits_value; cbn [fold_left]; lia|left; reflexivity].
  - apply N.ltb_ge in E. rewrite Nat2N.inj_succ, N.pow_succ_r' in V.
    destruct f as [|f]; [change (10 ^ N.of_nat 0) with 1 in V; lia|].
    destruct (IH (v / 10)) as (A & _ & B & C); [apply N.div_lt_upper_bound; lia|lia|].
    unfold digits_value in *. rewrite fold_left_app, B. cbn [fold_left]. split; [lia|]. right.
    destruct (decimal (S f) (v / 10)) as [|d t] eqn:D; [congruence|]. cbn [app hd].
    destruct C as [C|C]; [|exact C]. destruct t; [|cbn in C; lia]. cbn [fold_left] in B. lia.
Qed.
Lemma json_items_is l : Forall u32 l -> l <> [] -> json_numbers (json_items l) l.
Proof.
  intros F. induction F as [|v t V Ft IH]; intros NN; [congruence|].
  assert (is_number (decimal 10 v) v) as D by (apply decimal_is; [unfold u32 in V; change (10 ^ N.of_nat 10) with 10000000000; change (2^32) with 4294967296 in V; lia|lia]).
  destruct t as [|w t]; [apply jn_one; exact D|]. change (json_items (v :: w :: t)) with (decimal 10 v ++ 44 :: json_items (w :: t)).
  apply jn_more; [exact D|]. apply IH. discriminate.
Qed.
Lemma query_list l : Forall u32 l -> json_list (91 :: json_items l ++ [93]) l.
Proof.
  intros F. exists (json_items l). split; [reflexivity|]. destruct l as [|v t]; [left; auto|]. right. apply json_items_is; [exact F|discriminate].
Qed.
Lemma json_items_ascii l : Forall (fun d => 1 <= d < 128) (json_items l).
Proof.
  assert (forall f v, Forall (fun d => 1 <= d < 128) (decimal f v)) as D.
  { intros f v. eapply Forall_impl; [|apply decimal_digits]. cbn beta. intros a A. lia. }
  induction l as [|v [|w t] IH]; [constructor|apply D|].
  change (json_items (v :: w :: t)) with (decimal 10 v ++ 44 :: json_items (w :: t)).
  apply Forall_app. split; [apply D|]. constructor; [lia|exact IH].
Qed.
Lemma ascii_text l : Forall (fun d => 1 <= d < 128) l -> text l.
Proof.
  induction 1 as [|d l D _ IH]; [exists []; auto|]. change (d :: l) with ([d] ++ l). rewrite <- (utf8_1 d) by lia.
  apply text_cons; [unfold scalar; lia|exact IH].
Qed.
Lemma query_build l : Forall u32 l -> bytes (build_query_subscribers l) (BmService 1 (91 :: json_items l ++ [93])).
Proof.
  intros F. unfold build_query_subscribers.
  assert (Forall (fun d => 1 <= d < 128) (91 :: json_items l ++ [93])) as A.
  { constructor; [lia|]. apply Forall_app. split; [apply json_items_ascii|]. constructor; [lia|constructor]. }
  apply b_service; [apply ascii_text; exact A| |right; now exists []].
  intros H. rewrite Forall_forall in A. specialize (A 0 H). lia.
Qed.

(** ** Reading what was built *)
Lemma le_bytes_byte n v : Forall byte (le_bytes n v).
Proof. revert v. induction n as [|n IH]; intros v; cbn [le_bytes]; constructor; [unfold byte; lia|apply IH]. Qed.
Lemma uuid_byte u : Forall byte (uuid_as_bytes u).
Proof. unfold uuid_as_bytes. rewrite <- (rev_involutive (be_bytes 16 u)), rev_be_bytes. apply Forall_rev. apply le_bytes_byte. Qed.
Lemma flat_byte gs : Forall byte (flat_map (le_bytes 4) gs).
Proof. induction gs as [|g gs IH]; cbn [flat_map]; [constructor|]. apply Forall_app. split; [apply le_bytes_byte|exact IH]. Qed.
Lemma repeat_byte n : Forall byte (repeat 0 n).
Proof. induction n; cbn [repeat]; constructor; [unfold byte; lia|assumption]. Qed.
Lemma json_byte l : Forall byte (json_items l).
Proof. eapply Forall_impl; [|apply json_items_ascii]. cbn beta. unfold byte. intros; lia. Qed.
Ltac bytes_tac :=
  repeat match goal with
  | |- Forall byte (_ :: _) => constructor; [unfold byte in *; lia|]
  | |- Forall byte (_ ++ _) => apply Forall_app; split
  | |- Forall byte [] => constructor
  | |- Forall byte (le_bytes _ _) => apply le_bytes_byte
  | |- Forall byte (uuid_as_bytes _) => apply uuid_byte
  | |- Forall byte (flat_map _ _) => apply flat_byte
  | |- Forall byte (repeat 0 _) => apply repeat_byte
  | |- Forall byte (json_items _) => apply json_byte
  end; try assumption.

Lemma reads_subscriber n issi gs : u32 issi -> clock n -> Forall u32 gs ->
  parse_brew_message (build_subscriber_register n issi []) = Ok (inl (BmSubscriber (mk_brew_subscriber 1 issi (now_secs n) (now_nanos n) []))) /\
  parse_brew_message (build_subscriber_reregister n issi) = Ok (inl (BmSubscriber (mk_brew_subscriber 2 issi (now_secs n) (now_nanos n) []))) /\
  parse_brew_message (build_subscriber_affiliate n issi gs) = Ok (inl (BmSubscriber (mk_brew_subscriber 8 issi (now_secs n) (now_nanos n) gs))) /\
  parse_brew_message (build_subscriber_deaffiliate n issi gs) = Ok (inl (BmSubscriber (mk_brew_subscriber 9 issi (now_secs n) (now_nanos n) gs))) /\
  parse_brew_message (build_subscriber_deregister n issi) = Ok (inl (BmSubscriber (mk_brew_subscriber 0 issi (now_secs n) (now_nanos n) []))).
Proof.
  intros I C G. split; [|split; [|split; [|split]]]; apply parse_iff.
  1,3,5,7,9: unfold build_subscriber_register, build_subscriber_reregister, build_subscriber_affiliate, build_subscriber_deaffiliate, build_subscriber_deregister; bytes_tac.
  - now apply subscriber_build0.
  - now apply subscriber_build0.
  - now apply subscriber_build.
  - now apply subscriber_build.
  - now apply subscriber_build0.
Qed.
Lemma reads_group_tx u s d p v : u128 u -> u32 s -> u32 d -> byte p -> v < 2^16 ->
  parse_brew_message (build_group_tx u s d p v) = Ok (inl (BmCallControl (mk_brew_call 2 u (BpGroupTx (mk_brew_group_tx s d p 0 v))))).
Proof. intros. apply parse_iff; [unfold build_group_tx; bytes_tac|now apply group_tx_build]. Qed.
Lemma reads_group_idle u c : u128 u -> byte c ->
  parse_brew_message (build_group_idle u c) = Ok (inl (BmCallControl (mk_brew_call 3 u (BpCause c)))).
Proof. intros. apply parse_iff; [unfold build_group_idle; bytes_tac|now apply group_idle_build]. Qed.
Lemma reads_short_transfer u s d : u128 u -> u32 s -> u32 d ->
  parse_brew_message (build_short_transfer u s d) = Ok (inl (BmCallControl (mk_brew_call 11 u (BpShortTransfer s d)))).
Proof. intros. apply parse_iff; [unfold build_short_transfer; bytes_tac|now apply short_transfer_build]. Qed.
Lemma reads_frames u n data st : u128 u -> n < 2^16 -> Forall byte data -> byte st ->
  parse_brew_message (build_voice_frame u n data) = Ok (inl (BmFrame (mk_brew_frame 0 u n data))) /\
  parse_brew_message (build_sds_frame u n data) = Ok (inl (BmFrame (mk_brew_frame 1 u n data))) /\
  parse_brew_message (build_sds_report u st) = Ok (inl (BmFrame (mk_brew_frame 2 u 8 [st]))).
Proof.
  intros U V D B. split; [|split]; apply parse_iff.
  1,3,5: unfold build_voice_frame, build_sds_frame, build_sds_report; bytes_tac.
  - now apply frame_build.
  - now apply frame_build.
  - apply frame_build; [exact U|reflexivity].
Qed.
Lemma reads_query l : Forall u32 l -> exists json,
  parse_brew_message (build_query_subscribers l) = Ok (inl (BmService 1 json)) /\ json_list json l.
Proof.
  intros F. exists (91 :: json_items l ++ [93]). split; [|now apply query_list].
  apply parse_iff; [unfold build_query_subscribers; bytes_tac|now apply query_build].
Qed.
Lemma parse_no_panic data : parse_brew_message data <> Panic.
Proof. destruct (parse_total data) as (r & -> & _). discriminate. Qed.
Lemma parse_err data e : Forall byte data -> parse_brew_message data = Ok (inr e) -> forall m, ~ bytes data m.
Proof. intros F E. destruct (parse_total data) as (r & E' & S). specialize (S F). rewrite E in E'. injection E' as <-. exact S. Qed.
