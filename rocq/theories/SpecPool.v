(** Which pool a spawned thread belongs to, stated without the library: the thread's live pools, the most recent first. *)
From Verif Require Import Base PoolModel.

(** [live]: pools opened and not destroyed, the most recent first; [made]: number of pools opened; [added]: the pool of each thread. *)
Record pspec := PSpec { live : list nat; made : nat; added : list nat }.
(** Guards make no difference; adding a thread without a live pool panics; destroying a pool that is not live is a misuse (None).
    The flag: an exception is under way. *)
Fixpoint meaning (c : cmd) (s : pspec) : option (pspec * bool) :=
  match c with
  | Skip => Some (s, false)
  | Scope => Some (PSpec (made s :: live s) (S (made s)) (added s), false)
  | Spawn => match live s with [] => Some (s, true) | p :: _ => Some (PSpec (live s) (made s) (added s ++ [p]), false) end
  | Destroy p =>
      if existsb (Nat.eqb p) (live s) then Some (PSpec (filter (fun q => negb (Nat.eqb q p)) (live s)) (made s) (added s), false) else None
  | Throw => Some (s, true)
  | Seq a b => match meaning a s with Some (s, false) => meaning b s | r => r end
  | Guard c => meaning c s
  | Try c => match meaning c s with Some (s, _) => Some (s, false) | None => None end
  end.
Definition nothing : pspec := PSpec [] 0 [].
