(** Bursts as in EN 300 392-2 clause 9.4.4. *)
From Coq Require Import ZArith.
From Verif Require Import Base BitBuffer BitBufferProofs Slotter.
Open Scope nat_scope.

Definition b2b (l : list bool) : list N := map N.b2n l.
(** 9.4.4.3: training sequences and the frequency correction field *)
Definition sq (s : list nat) : list bool := map (fun n => n =? 1) s.
Definition normal1 : list bool := sq [1;1;0;1;0;0;0;0;1;1;1;0;1;0;0;1;1;1;0;1;0;0].
Definition normal2 : list bool := sq [0;1;1;1;1;0;1;0;0;1;0;0;0;0;1;1;0;1;1;1;1;0].
Definition normal3 : list bool := sq [1;0;1;1;0;1;1;1;0;0;0;0;0;1;1;0;1;0;1;1;0;1].
Definition sync : list bool := sq [1;1;0;0;0;0;0;1;1;0;0;1;1;1;0;0;1;1;1;0;1;0;0;1;1;1;0;0;0;0;0;1;1;0;0;1;1;1].
Definition frequency_correction : list bool := repeat true 8 ++ repeat false 64 ++ repeat true 8.

(** 9.4.4.2.5 normal continuous downlink burst, 9.4.4.2.6 synchronisation continuous downlink burst:
    [h1], [h2] are the phase adjustment bits. *)
Definition ndb (train blk1 bbk blk2 h1 h2 : list bool) : list bool :=
  skipn 10 normal3 ++ h1 ++ blk1 ++ firstn 14 bbk ++ train ++ skipn 14 bbk ++ blk2 ++ h2 ++ firstn 10 normal3.
Definition sdb (blk1 bbk blk2 h1 h2 : list bool) : list bool :=
  skipn 10 normal3 ++ h1 ++ frequency_correction ++ blk1 ++ sync ++ bbk ++ blk2 ++ h2 ++ firstn 10 normal3.
(** 9.4.4.2.2 normal uplink burst, 9.4.4.2.1 control uplink burst *)
Definition nub (tail train blk1 blk2 tail2 : list bool) : list bool := tail ++ blk1 ++ train ++ blk2 ++ tail2.

Definition train_bits (t : train_seq) : list bool := match t with TrainNormal2 => normal2 | _ => normal1 end.
(** A buffer at its beginning that holds exactly [l] *)
Definition fresh_with (b : bitbuf) (l : list bool) : Prop := wf b /\ bpos b = bstart b /\ window b = l.

(** 5.4: the phase a pair of bits adds, in units of pi/4 *)
Definition phase (b1 b2 : bool) : Z := match b1, b2 with true, true => -3 | false, true => 3 | false, false => 1 | true, false => -1 end%Z.
Fixpoint phases (l : list bool) : Z := match l with a :: b :: l => (phase a b + phases l)%Z | _ => 0%Z end.
(** Symbols [n1] to [n2] of a burst, counted from 1 *)
Definition symbols (n1 n2 : nat) (burst : list bool) : list bool := firstn (2 * (n2 - n1 + 1)) (skipn (2 * (n1 - 1)) burst).
(** 9.4.4.3.6: the adjustment bits cancel the phase accumulated over symbols [n1] to [n2]. *)
Definition compensates (h : list bool) (n1 n2 : nat) (burst : list bool) : Prop := ((phases h + phases (symbols n1 n2 burst)) mod 8 = 0)%Z.
(** What is left of the accumulated phase after the adjustment; 4 is half a turn *)
Definition off (h : list bool) (n1 n2 : nat) (burst : list bool) : Z := ((phases h + phases (symbols n1 n2 burst)) mod 8)%Z.
