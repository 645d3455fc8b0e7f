(** Model of crates/tetra-entities/src/umac/subcomp/defrag.rs and bs_defrag.rs.
    Simplifications: the log messages are not modelled; [Option<Todo>] (encryption information) is a flag. *)
From Verif Require Import Base AMap BitBuffer MacFields TdmaTime.
Open Scope N_scope.

(** defrag.rs:6-10 *)
Inductive df_state := DfInactive | DfActive | DfComplete.
Definition df_is_active (s : df_state) : bool := match s with DfActive => true | _ => false end.
Definition df_is_inactive (s : df_state) : bool := match s with DfInactive => true | _ => false end.
(** defrag.rs:12-20 *)
Record df_buf := mk_df { df_st : df_state; df_addr : tetra_addr; df_first : tdma_time; df_last : tdma_time; df_frags : nat; df_aie : bool; df_bits : bitbuf }.
(** defrag.rs:3, bs_defrag.rs:7-8 *)
Definition DEFRAG_BUF_INITIAL_LEN : nat := 512.
Definition DEFRAG_BUF_MAX_LEN : N := 4096.
Definition DEFRAG_TS_BEFORE_TIMEOUT : Z := 40.
(** the default time, tdma_time.rs:42-46 *)
Definition time_default : tdma_time := mk_time 1 1 1 0.
(** defrag.rs:23-37; [reset] (39-51) gives the same value *)
Definition df_new : df_buf :=
  mk_df DfInactive (mk_addr 0 false SsiUnknown) time_default time_default 0 false (bb_new_autoexpand DEFRAG_BUF_INITIAL_LEN).

(** bs_defrag.rs:13-22: one map per timeslot, indexed by SSI *)
Definition defrag := list (amap df_buf).
Definition defrag_new : defrag := [[]; []; []; []].
(** bs_defrag.rs:24-28 *)
Definition defrag_reset (d : defrag) : defrag := map (fun _ => []) d.

(** bs_defrag.rs:30-39 *)
Definition df_age (t : tdma_time) (b : df_buf) : res df_buf :=
  if df_is_inactive (df_st b) then Ok b
  else d <- tdiff t (df_last b) ;; if (DEFRAG_TS_BEFORE_TIMEOUT <? d)%Z then Ok df_new else Ok b.
Fixpoint age_buffers (t : tdma_time) (d : defrag) : res defrag :=
  match d with
  | [] => Ok []
  | m :: r => m <- amapm (df_age t) m ;; r <- age_buffers t r ;; Ok (m :: r)
  end.

(** [(t.t - 1) as usize] on a u8, and the array index *)
Definition ts_index (t : tdma_time) : res nat := assert (1 <=? tm_t t)%Z ;;; Ok (Z.to_nat (tm_t t - 1)).
Definition slot_map (d : defrag) (i : nat) : res (amap df_buf) := unwrap (nth_error d i).

(** bs_defrag.rs:42-77; also returns the consumed source buffer *)
Definition insert_first (src : bitbuf) (t : tdma_time) (a : tetra_addr) (aie : bool) (d : defrag) : res (defrag * bitbuf) :=
  i <- ts_index t ;; m <- slot_map d i ;;
  (* 47-53: an existing entry is removed and reset, which gives the same value as a new one *)
  n <- get_len_remaining src ;;
  ' (bits, src) <- copy_bits n src (df_bits df_new) ;;
  Ok (upd d i (aset (ad_ssi a) (mk_df DfActive a t t 1 aie bits) (adel (ad_ssi a) m)), src).

(** bs_defrag.rs:79-115 *)
Definition insert_next (src : bitbuf) (ssi : N) (t : tdma_time) (d : defrag) : res (defrag * bitbuf) :=
  i <- ts_index t ;; m <- slot_map d i ;;
  match aget ssi m with
  | None => Ok (d, src)
  | Some b =>
      if negb (df_is_active (df_st b)) then Ok (d, src)
      else
        l <- get_len (df_bits b) ;; n <- get_len_remaining src ;;
        if DEFRAG_BUF_MAX_LEN <? N.of_nat (l + n) then Ok (upd d i (aset ssi df_new m), src)
        else
          ' (bits, src) <- copy_bits n src (df_bits b) ;;
          Ok (upd d i (aset ssi (mk_df DfActive (df_addr b) (df_first b) t (df_frags b + 1) (df_aie b) bits) m), src)
  end.

(** bs_defrag.rs:118-136 *)
Definition insert_last (src : bitbuf) (ssi : N) (t : tdma_time) (d : defrag) : res (option df_buf * defrag * bitbuf) :=
  ' (d, src) <- insert_next src ssi t d ;;
  i <- ts_index t ;; m <- slot_map d i ;;
  match aget ssi m with
  | None => Ok (None, d, src)
  | Some b =>
      bits <- set_raw_pos 0 (df_bits b) ;;
      Ok (Some (mk_df DfComplete (df_addr b) (df_first b) (df_last b) (df_frags b) (df_aie b) bits), upd d i (adel ssi m), src)
  end.

(** bs_defrag.rs:139-153: whether there is encryption information *)
Definition get_aie_info (ssi : N) (t : tdma_time) (d : defrag) : res bool :=
  i <- ts_index t ;; m <- slot_map d i ;;
  match aget ssi m with
  | None => Ok false
  | Some b => if df_is_inactive (df_st b) then Ok false else Ok (df_aie b)
  end.
