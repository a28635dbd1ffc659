(** Reference semantics for exceptions and guards, over the syntax of [ExcModel] only: a statement yields the
    events it performs and either finishes or raises an exception (name, message; 0 for no message). *)
From Verif Require Import ExcModel.

Definition exn := (Z * Z)%type.
Inductive rres := Done | Raised (e : exn).

(** ** try / catch / finally *)

(** [h]: the exception being handled, for rethrow. *)
Fixpoint sref (s : stmt) (h : exn) {struct s} : list event * rres :=
  match s with
  | Act a => ([EAct a], Done)
  | Seq s1 s2 =>
      let '(t1, r1) := sref s1 h in
      match r1 with Raised e => (t1, Raised e) | Done => let '(t2, r2) := sref s2 h in (t1 ++ t2, r2) end
  | Throw e => ([], Raised (e, 0))
  | Panic m => ([], Raised (ex_panic, m))
  | Rethrow => ([], Raised h)
  | Try b cs hf f =>
      let '(t1, r1) := sref b h in
      let '(t2, r2) := match r1 with Done => ([], Done) | Raised e => shandle cs e end in
      let '(t3, r3) := if hf then sref f h else ([], Done) in
      (t1 ++ t2 ++ t3, match r3 with Raised e => Raised e | Done => r2 end)
  | _ => ([], Done)
  end
with shandle (cs : clauses) (e : exn) {struct cs} : list event * rres :=
  match cs with
  | CNil => ([], Raised e)
  | Catch x s cs => if x =? fst e then sref s e else shandle cs e
  | CatchAny s _ => sref s e
  | CatchIf _ _ => ([], Raised e)
  end.

(** Programs over these constructs; rethrow only in a handler, not inside a further block there ([inh]).  Names are not NULL. *)
Fixpoint try_only (inh : bool) (s : stmt) {struct s} : Prop :=
  match s with
  | Skip | Act _ | Panic _ => True
  | Throw e => e <> 0
  | Rethrow => inh = true
  | Seq s1 s2 => try_only inh s1 /\ try_only inh s2
  | Try b cs hf f => try_only false b /\ try_only_c cs /\ (hf = true -> try_only false f)
  | _ => False
  end
with try_only_c (cs : clauses) {struct cs} : Prop :=
  match cs with
  | CNil => True
  | Catch _ s cs | CatchAny s cs => try_only true s /\ try_only_c cs
  | CatchIf _ _ => False
  end.

(** ** guards *)

(** A guard's state: the functions deferred so far, newest first, and the last error raised in it (0: none). *)
Definition gst := (list (dfun * Z) * Z)%type.
Definition pend (e : exn) : Z := if snd e =? 0 then fst e else snd e.
Definition hits (err : Z) (p : dfun * Z) : bool := negb (err =? 0) && match d_recover (fst p) with Some n => err =? n | None => false end.
(** The deferred functions run newest first; one that recovers the last error sees it. *)
Definition drain (D : list (dfun * Z)) (err : Z) : list event :=
  flat_map (fun p => EDefer (d_act (fst p)) (snd p) :: if hits err p then [ECaught err] else []) D.

Fixpoint ref (s : stmt) (h : exn) (g : gst) {struct s} : list event * rres * gst :=
  match s with
  | Act a => ([EAct a], Done, g)
  | Seq s1 s2 =>
      let '(t1, r1, g1) := ref s1 h g in
      match r1 with Raised e => (t1, Raised e, g1) | Done => let '(t2, r2, g2) := ref s2 h g1 in (t1 ++ t2, r2, g2) end
  | Throw e => ([], Raised (e, 0), (fst g, pend (e, 0)))
  | Panic m => ([], Raised (ex_panic, m), (fst g, pend (ex_panic, m)))
  | Rethrow => ([], Raised h, (fst g, pend h))
  | Try b cs hf f =>
      let '(t1, r1, g1) := ref b h g in
      let '(t2, r2, g2) := match r1 with Done => ([], Done, g1) | Raised e => rhandle cs e g1 end in
      let '(t3, r3, g3) := if hf then ref f h g2 else ([], Done, g2) in
      let r := match r3 with Raised e => Raised e | Done => r2 end in
      (t1 ++ t2 ++ t3, r, match r with Raised e => (fst g3, pend e) | Done => g3 end)
  | Guard b =>
      let '(t1, r1, g1) := ref b h ([], 0) in
      let t2 := drain (fst g1) (snd g1) in
      match r1 with
      | Done => (t1 ++ t2, Done, g)
      | Raised e => if existsb (hits (snd g1)) (fst g1) then (t1 ++ t2, Done, g) else (t1 ++ t2, Raised e, (fst g, pend e))
      end
  | Defer f d => ([], Done, ((f, d) :: fst g, snd g))
  | _ => ([], Done, g)
  end
with rhandle (cs : clauses) (e : exn) (g : gst) {struct cs} : list event * rres * gst :=
  match cs with
  | CNil => ([], Raised e, g)
  | Catch x s cs => if x =? fst e then ref s e g else rhandle cs e g
  | CatchAny s _ => ref s e g
  | CatchIf _ _ => ([], Raised e, g)
  end.

(** Programs of try blocks, guards and deferred functions ([ing]: inside a guard) that do not throw; no _malloc, no protected pointers. *)
Fixpoint core (inh ing : bool) (s : stmt) {struct s} : Prop :=
  match s with
  | Skip | Act _ | Panic _ => True
  | Throw e => e <> 0
  | Rethrow => inh = true
  | Seq s1 s2 => core inh ing s1 /\ core inh ing s2
  | Try b cs hf f => core false ing b /\ core_c ing cs /\ (hf = true -> core false ing f)
  | Guard b => core false true b
  | Defer f _ => ing = true /\ d_throw f = None
  | _ => False
  end
with core_c (ing : bool) (cs : clauses) {struct cs} : Prop :=
  match cs with
  | CNil => True
  | Catch _ s cs | CatchAny s cs => core true ing s /\ core_c ing cs
  | CatchIf _ _ => False
  end.
(** The same, but functions deferred in the innermost guard around [s] may throw. *)
Fixpoint loud (inh ing : bool) (s : stmt) {struct s} : Prop :=
  match s with
  | Skip | Act _ | Panic _ => True
  | Throw e => e <> 0
  | Rethrow => inh = true
  | Seq s1 s2 => loud inh ing s1 /\ loud inh ing s2
  | Try b cs hf f => loud false ing b /\ loud_c ing cs /\ (hf = true -> loud false ing f)
  | Guard b => core false true b
  | Defer _ _ => ing = true
  | _ => False
  end
with loud_c (ing : bool) (cs : clauses) {struct cs} : Prop :=
  match cs with
  | CNil => True
  | Catch _ s cs | CatchAny s cs => loud true ing s /\ loud_c ing cs
  | CatchIf _ _ => False
  end.
(** ** deferred functions that throw *)
Definition quiet (p : dfun * Z) : Prop := d_throw (fst p) = None.
(** The same functions, called with NULL. *)
Definition nulled (l : list (dfun * Z)) : list (dfun * Z) := map (fun p => (fst p, 0)) l.
(** The guard's last error is [err]; the functions [pre] are due before [f], which throws [x].  What is called before the exception [x] leaves the guard:
    up to [f] if one of them recovers [err]; up to [f] and once more up to [f], with NULL, if one of them recovers [x]; [None]: the calls go on for ever. *)
Definition left_by (err x : Z) (pre : list (dfun * Z)) (f : dfun) (d : Z) : option (list event) :=
  if existsb (hits err) (pre ++ [(f, d)]) then Some (drain (pre ++ [(f, d)]) err)
  else if existsb (hits x) (pre ++ [(f, d)]) then Some (drain (pre ++ [(f, d)]) err ++ drain (nulled pre ++ [(f, d)]) x)
  else None.

(** How the whole program ends. *)
Definition fin_of (r : rres) : final := match r with Done => Finished | Raised e => Uncaught (fst e) (snd e) end.


(** ** finally *)

(** Each [E] is followed by exactly one [F] of its own, properly nested. *)
Inductive balanced (E F : Z) : list event -> Prop :=
| bal_nil : balanced E F []
| bal_other e t : e <> EAct E -> e <> EAct F -> balanced E F t -> balanced E F (e :: t)
| bal_block t1 t2 : balanced E F t1 -> balanced E F t2 -> balanced E F (EAct E :: t1 ++ EAct F :: t2).
(** [E] marks the start of try blocks whose finally part starts with [F]; neither is used elsewhere. *)
Fixpoint marked (E F : Z) (s : stmt) {struct s} : Prop :=
  match s with
  | Act a => a <> E /\ a <> F
  | Seq s1 s2 => marked E F s1 /\ marked E F s2
  | Try b cs hf f =>
      marked_c E F cs /\
      ((marked E F b /\ marked E F f) \/
       (match b with Seq (Act a) b' => a = E /\ marked E F b' | _ => False end /\ hf = true /\ match f with Seq (Act a) f' => a = F /\ marked E F f' | _ => False end))
  | Guard b => marked E F b
  | _ => True
  end
with marked_c (E F : Z) (cs : clauses) {struct cs} : Prop :=
  match cs with
  | CNil => True
  | Catch _ s cs | CatchAny s cs | CatchIf s cs => marked E F s /\ marked_c E F cs
  end.

(** ** protected pointers *)
(** [ps]: (function, value), outermost first. *)
Fixpoint nest (ps : list (Z * Z)) (s : stmt) : stmt := match ps with [] => s | (a, v) :: ps => Protected a v (nest ps s) end.
(** What must be released when an exception leaves: the non-NULL ones, newest first. *)
Definition releases (ps : list (Z * Z)) : list event := map (fun p => ERelease (fst p) (snd p)) (filter (fun p => negb (snd p =? 0)) (rev ps)).
Fixpoint differ (l : list Z) : Prop := match l with a :: ((b :: _) as r) => a <> b /\ differ r | _ => True end.

(** ** no guard inside *)
Fixpoint no_guard (s : stmt) {struct s} : Prop :=
  match s with
  | Seq s1 s2 => no_guard s1 /\ no_guard s2
  | Try b cs hf f => no_guard b /\ no_guard_c cs /\ no_guard f
  | Guard _ => False
  | _ => True
  end
with no_guard_c (cs : clauses) {struct cs} : Prop :=
  match cs with CNil => True | Catch _ s cs | CatchAny s cs | CatchIf s cs => no_guard s /\ no_guard_c cs end.
Definition is_defer (e : event) : bool := match e with EDefer _ _ => true | _ => false end.
