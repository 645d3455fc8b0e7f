(** Specification of uplink reassembly: what has been collected for a radio on a timeslot, as a
    relation on the history of events (oldest first). *)
From Verif Require Import Base BitBuffer BitBufferProofs MacFields TdmaTime TdmaTimeProofs Defrag.
Open Scope N_scope.

(** What happens to the reassembler.  The buffers hold the fragment between their cursor and their end. *)
Inductive df_event :=
| DfStart (t : tdma_time) (a : tetra_addr) (aie : bool) (frag : bitbuf)
| DfNext (t : tdma_time) (ssi : N) (frag : bitbuf)
| DfEnd (t : tdma_time) (ssi : N) (frag : bitbuf)
| DfTick (t : tdma_time)
| DfReset.
Definition df_time_ok (e : df_event) : Prop :=
  match e with DfStart t _ _ f | DfNext t _ f | DfEnd t _ f => vtime t /\ wf f | DfTick t => vtime t | DfReset => True end.
(** The event is about timeslot [ts] and radio [ssi]. *)
Definition df_about (ts : Z) (ssi : N) (e : df_event) : bool :=
  match e with
  | DfStart t a _ _ => (tm_t t =? ts)%Z && (ad_ssi a =? ssi)
  | DfNext t s _ | DfEnd t s _ => (tm_t t =? ts)%Z && (s =? ssi)
  | DfTick _ | DfReset => true
  end.

(** [collected ts ssi h a aie bits last]: after history [h] a reassembly for radio [ssi] on timeslot
    [ts] is open; it was started with address [a] and encryption flag [aie], its fragments so far
    concatenate to [bits] and the last of them came at time [last]. *)
Inductive collected (ts : Z) (ssi : N) : list df_event -> tetra_addr -> bool -> list bool -> tdma_time -> Prop :=
| c_start h t a aie f : tm_t t = ts -> ad_ssi a = ssi -> collected ts ssi (h ++ [DfStart t a aie f]) a aie (remaining f) t
| c_next h a aie bits last t f : collected ts ssi h a aie bits last -> tm_t t = ts ->
    N.of_nat (length bits + length (remaining f)) <= 4096 -> collected ts ssi (h ++ [DfNext t ssi f]) a aie (bits ++ remaining f) t
| c_tick h a aie bits last t d : collected ts ssi h a aie bits last -> tdiff t last = Ok d -> (d <= 40)%Z ->
    collected ts ssi (h ++ [DfTick t]) a aie bits last
| c_other h a aie bits last e : collected ts ssi h a aie bits last -> df_about ts ssi e = false -> collected ts ssi (h ++ [e]) a aie bits last.

(** Running the code on a history; the output lists what each end-of-SDU event delivered. *)
Definition df_step (d : defrag) (e : df_event) : res (defrag * list (option df_buf)) :=
  match e with
  | DfStart t a aie f => ' (d, _) <- insert_first f t a aie d ;; Ok (d, [])
  | DfNext t ssi f => ' (d, _) <- insert_next f ssi t d ;; Ok (d, [])
  | DfEnd t ssi f => ' (o, d, _) <- insert_last f ssi t d ;; Ok (d, [o])
  | DfTick t => d <- age_buffers t d ;; Ok (d, [])
  | DfReset => Ok (defrag_reset d, [])
  end.
Fixpoint df_run (d : defrag) (h : list df_event) : res defrag :=
  match h with [] => Ok d | e :: r => ' (d, _) <- df_step d e ;; df_run d r end.
(** Nothing of the radio's data is handed out: either nothing at all, or an empty SDU with the null address. *)
Definition empty_handout (o : option df_buf) : Prop :=
  o = None \/ exists b, o = Some b /\ df_addr b = mk_addr 0 false SsiUnknown /\ df_frags b = 0%nat /\ window (df_bits b) = [] /\ remaining (df_bits b) = [].
