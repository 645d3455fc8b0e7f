(** Facts about [copy_idx], [slice], [blit]. *)
From Verif Require Import Base ArrCopy.

Section Arr.
  Context {A : Type}.
  Implicit Types (src dst out : list A) (ps : list (nat * nat)).
  Definition in_range ps (n m : nat) : Prop := forall i j, In (i, j) ps -> (i < n)%nat /\ (j < m)%nat.

  Lemma copy_idx_spec ps : forall src dst, in_range ps (length dst) (length src) -> NoDup (map fst ps) ->
    exists out, copy_idx ps src dst = Ok out /\ length out = length dst /\
      (forall i j d, In (i, j) ps -> nth i out d = nth j src d) /\ (forall i d, ~ In i (map fst ps) -> nth i out d = nth i dst d).
  Proof.
    induction ps as [|[i j] ps IH]; intros src dst R ND.
    - exists dst. split; [reflexivity|]. split; [reflexivity|]. split; [intros ? ? ? []|reflexivity].
    - cbn [copy_idx]. unfold copy1. destruct (R i j (or_introl eq_refl)) as [Ri Rj].
      destruct (nth_error src j) as [x|] eqn:Ex; [|apply nth_error_None in Ex; lia]. cbn [unwrap bind].
      destruct (Nat.ltb_spec i (length dst)); [|lia]. cbn [assert bind].
      cbn [map fst] in ND. apply NoDup_cons_iff in ND. destruct ND as [NI ND].
      destruct (IH src (upd dst i x)) as (out & E & L & H1 & H2); [rewrite upd_length; intros a b Hab; apply R; now right|assumption|].
      exists out. split; [assumption|]. split; [now rewrite L, upd_length|]. split.
      + intros a b d [Q|Q]; [|now apply H1]. injection Q as <- <-. rewrite H2 by assumption. rewrite nth_upd, Nat.eqb_refl. destruct (Nat.ltb_spec i (length dst)); [|lia]. cbn [andb].
        symmetry. now apply nth_error_nth.
      + intros a d Ha. rewrite H2 by (intros Q; apply Ha; now right). rewrite nth_upd. destruct (Nat.eqb_spec a i) as [->|]; [exfalso; apply Ha; now left|reflexivity].
  Qed.

  (** A loop of copies is a function of the mapped array. *)
  Lemma slice_ok (a : list A) i n : (i + n <= length a)%nat -> slice a i n = Ok (firstn n (skipn i a)).
  Proof. intros H. unfold slice. destruct (Nat.leb_spec (i + n) (length a)); [reflexivity|lia]. Qed.
  Lemma blit_ok (a : list A) i s : (i + length s <= length a)%nat -> blit a i s = Ok (firstn i a ++ s ++ skipn (i + length s) a).
  Proof. intros H. unfold blit. destruct (Nat.leb_spec (i + length s) (length a)); [reflexivity|lia]. Qed.
  Lemma blit_length (a : list A) i s : (i + length s <= length a)%nat -> length (firstn i a ++ s ++ skipn (i + length s) a) = length a.
  Proof. intros H. rewrite !app_length, firstn_length, skipn_length. lia. Qed.
End Arr.

Lemma list_ext {A} (l m : list A) d : length l = length m -> (forall i, (i < length l)%nat -> nth i l d = nth i m d) -> l = m.
Proof. intros L H. apply (nth_ext l m d d L H). Qed.

Lemma copy_idx_map {A B} (f : A -> B) ps : forall src dst,
  copy_idx ps (map f src) (map f dst) = match copy_idx ps src dst with Ok l => Ok (map f l) | Err e => Err e | Panic => Panic end.
Proof.
  induction ps as [|[i j] ps IH]; intros src dst; [reflexivity|]. cbn [copy_idx]. unfold copy1. rewrite nth_error_map. destruct (nth_error src j) as [x|]; [|reflexivity].
  cbn [option_map unwrap bind]. rewrite map_length. destruct (i <? length dst)%nat; [|reflexivity]. cbn [assert bind].
  replace (upd (map f dst) i (f x)) with (map f (upd dst i x)); [apply IH|]. clear. revert i. induction dst as [|h t IH]; intros [|i]; cbn; congruence.
Qed.
Lemma nth_map_seq {A} (g : nat -> A) n i d : (i < n)%nat -> nth i (map g (seq 0 n)) d = g i.
Proof.
  intros H. rewrite (nth_indep _ d (g 0%nat)) by (rewrite map_length, seq_length; assumption). rewrite (map_nth g), seq_nth by assumption. reflexivity.
Qed.
