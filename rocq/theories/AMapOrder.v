(** Iteration over a [HashMap] or [HashSet]: the order is unspecified, so every function that iterates takes a
    hint, the keys it meets first.  Every order of the entries is obtained by some hint
    ([AMapOrderProofs.arrange_any]) and no hint loses or repeats an entry ([arrange_perm]). *)
From Verif Require Import Base AMap.
Open Scope N_scope.

Definition memN (k : N) (l : list N) : bool := existsb (N.eqb k) l.

Definition arrange {A} (hint : list N) (m : amap A) : list (N * A) :=
  flat_map (fun k => match aget k m with Some v => [(k, v)] | None => [] end) (nodup N.eq_dec hint)
  ++ filter (fun p => negb (memN (fst p) hint)) m.

Definition arrange_set (hint l : list N) : list N :=
  filter (fun k => memN k l) (nodup N.eq_dec hint) ++ filter (fun k => negb (memN k hint)) l.
