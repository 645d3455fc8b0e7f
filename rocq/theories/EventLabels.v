(** Model of crates/tetra-entities/src/umac/subcomp/event_label_store.rs.  (The base station's MAC has
    the store commented out, umac_bs.rs:55, 87; the module itself is complete.)  An address is kept
    as its SSI and its other fields [A]. *)
From Verif Require Import Base AMap.
Open Scope N_scope.

Section Labels.
Context {A : Type}.
Definition el_addr := (N * A)%type.
(** event_label_store.rs:6-15: [EventLabelMapping] and [EventLabelStore] *)
Record el_mapping := mk_elm { elm_addr : el_addr; elm_label : N }.
Record el_store := mk_els { els_labels : amap el_mapping; els_next : N }.
(** event_label_store.rs:18-23 [new] *)
Definition els_new : el_store := mk_els [] 1.
(** event_label_store.rs:28-32 [get_free_label] *)
Definition els_get_free (s : el_store) : N * el_store :=
  (els_next s, mk_els (els_labels s) ((els_next s + 1) mod 511)).
(** event_label_store.rs:48-50 [get_addr_by_label] *)
Definition els_addr_by_label (s : el_store) (label : N) : option el_addr :=
  option_map elm_addr (aget label (els_labels s)).
(** event_label_store.rs:53-58 [get_label_by_ssi]: the first entry in the map's iteration order *)
Definition els_label_by_ssi (s : el_store) (ssi : N) : option N :=
  option_map (fun p => elm_label (snd p)) (find (fun p => fst (elm_addr (snd p)) =? ssi) (els_labels s)).
(** event_label_store.rs:36-44 [create_label_for_addr] *)
Definition els_create (a : el_addr) (s : el_store) : res (N * el_store) :=
  assert (match els_label_by_ssi s (fst a) with None => true | Some _ => false end) ;;;
  let '(label, s) := els_get_free s in
  Ok (label, mk_els (aset label (mk_elm a label) (els_labels s)) (els_next s)).

(** A history of assignments; the labels given out, in order. *)
Fixpoint els_run (s : el_store) (l : list el_addr) : res (list N * el_store) :=
  match l with
  | [] => Ok ([], s)
  | a :: t => '(x, s) <- els_create a s ;; '(xs, s) <- els_run s t ;; Ok (x :: xs, s)
  end.
End Labels.
Arguments el_addr A : clear implicits.
Arguments el_store A : clear implicits.

(** The radio an event label was last given to, from the assignments made in order. *)
Definition last_holder {A} (label : N) (given : list (N * el_addr A)) : option (el_addr A) :=
  fold_left (fun o p => if fst p =? label then Some (snd p) else o) given None.
