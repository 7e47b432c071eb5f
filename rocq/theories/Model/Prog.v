(** Programs with effects, and their sequential, crash and concurrent semantics.

    Everything the library does outside its own memory is one of the operations [op]; an API
    function is a tree of operations and continuations. *)
From Coq Require Import String Ascii List Arith NArith Bool.
From Verif Require Import Model.GoStr Model.Errors Model.Path.
Import ListNotations.
Open Scope string_scope.

(** The calls leaving the library:
    - os.ReadFile (libcni/api.go:315,343,371,460); every caller only tests the error for nil
    - os.WriteFile (api.go:296) is its two system calls, open with O_CREATE|O_TRUNC and write
    - os.Remove (api.go:305), os.MkdirAll (api.go:292), os.ReadDir (api.go:434)
    - os.Environ (pkg/invoke/args.go:57,97) and os.Getenv (delegate.go:30)
    - Exec.FindInPath, Exec.ExecPlugin (the pluggable interface of pkg/invoke/exec.go:31-35) *)
Inductive op :=
| OpRead (path : string)
| OpTrunc (path : string)
| OpWrite (path data : string)
| OpRemove (path : string)
| OpMkdir (path : string)
| OpReadDir (path : string)
| OpEnviron
| OpFind (plugin : string) (paths : list string)
| OpExec (path stdin : string) (env : list string).

(** Answers. *)
Inductive resp :=
| RErr (e : option goerr)
| RData (d : option string)
| RNames (r : res (list string))
| REnv (l : list string)
| RStr (r : res string).

Inductive prog (A : Type) : Type :=
| Ret (a : A)
| Do (o : op) (k : resp -> prog A).
Arguments Ret {A} a.
Arguments Do {A} o k.

Fixpoint bind {A B} (p : prog A) (f : A -> prog B) : prog B :=
  match p with
  | Ret a => f a
  | Do o k => Do o (fun r => bind (k r) f)
  end.

(** Sequencing of calls that return (value, error): an error or panic ends the function. *)
Definition rbindp {A B} (p : prog (res A)) (f : A -> prog (res B)) : prog (res B) :=
  bind p (fun r => match r with
                   | Ok a => f a
                   | Err e => Ret (Err e)
                   | Panic => Ret Panic
                   end).

Declare Scope prog_scope.
Delimit Scope prog_scope with prog.
Notation "'do' x '<-' p ';;' q" := (bind p (fun x => q))
  (at level 200, x pattern, p at level 100, q at level 200, right associativity) : prog_scope.
Notation "'do!' x '<-' p ';;' q" := (rbindp p (fun x => q))
  (at level 200, x pattern, p at level 100, q at level 200, right associativity) : prog_scope.
Open Scope prog_scope.

(** A pure (value, error) computation. *)
Definition lift {A} (r : res A) : prog (res A) := Ret r.

(** Wrapping the error of a call. *)
Definition pwrap {A} (pre : string) (p : prog (res A)) : prog (res A) :=
  bind p (fun r => Ret (rwrap pre r)).

(** One operation each.  Answers of another kind do not occur (see [answer]). *)
Definition read_file (p : string) : prog (option string) :=
  Do (OpRead p) (fun r => Ret (match r with RData d => d | _ => None end)).
Definition remove_file (p : string) : prog (option goerr) :=
  Do (OpRemove p) (fun r => Ret (match r with RErr e => e | _ => None end)).
Definition mkdir_all (p : string) : prog (option goerr) :=
  Do (OpMkdir p) (fun r => Ret (match r with RErr e => e | _ => None end)).
(** os.WriteFile: nothing is written if the file cannot be opened. *)
Definition write_file (p data : string) : prog (option goerr) :=
  Do (OpTrunc p) (fun r =>
    match r with
    | RErr (Some e) => Ret (Some e)
    | _ => Do (OpWrite p data) (fun r => Ret (match r with RErr e => e | _ => None end))
    end).
Definition read_dir (p : string) : prog (res (list string)) :=
  Do (OpReadDir p) (fun r => Ret (match r with RNames x => x | _ => Ok [] end)).
Definition get_environ : prog (list string) :=
  Do OpEnviron (fun r => Ret (match r with REnv l => l | _ => [] end)).
Definition find_plugin (plugin : string) (paths : list string) : prog (res string) :=
  Do (OpFind plugin paths) (fun r => Ret (match r with RStr x => x | _ => Panic end)).
Definition run_plugin (path stdin : string) (env : list string) : prog (res string) :=
  Do (OpExec path stdin env) (fun r => Ret (match r with RStr x => x | _ => Panic end)).

(** ** The world: the regular files, by cleaned path. *)
Definition world : Type := smap string.

(** Writing at offset 0 of an open file: bytes beyond the data stay.  A file unlinked since it was
    opened is not re-created (simplification: unlinked and
    re-created in between is not distinguished from never unlinked; see [happens] of RaceSpec). *)
Definition overlay (p data : string) (w : world) : world :=
  match sget p w with
  | None => w
  | Some c => sset p (data ++ sdrop (String.length data) c) w
  end.

(** [n] if [q] is [p/n] with [n] a single path element. *)
Fixpoint strip_prefix (pre s : string) : option string :=
  match pre, s with
  | EmptyString, _ => Some s
  | String a pre', String b s' => if Ascii.eqb a b then strip_prefix pre' s' else None
  | String _ _, EmptyString => None
  end.
Definition child_name (p q : string) : option string :=
  match strip_prefix (p ++ "/") q with
  | Some n => if String.eqb n "" || contains_byte slash n then None else Some n
  | None => None
  end.
(** Entries of a directory (simplification: sub-directories are not listed; reading one fails,
    and both callers skip it). *)
Definition children (p : string) (w : world) : list string :=
  flat_map (fun kv => match child_name p (fst kv) with Some n => [n] | None => [] end) w.

Definition str_prefix (p s : string) : Prop := exists t, s = p ++ t.

(** [answer fl w o r w']: in world [w] operation [o] may answer [r] and leave world [w'].  With
    [fl = true] any file operation may also fail.  What plugins and the environment answer is
    unconstrained (simplification: plugins do not touch the cache files; an Exec implementation
    does not panic). *)
Inductive answer (fl : bool) (w : world) : op -> resp -> world -> Prop :=
| AnsRead p : answer fl w (OpRead p) (RData (sget p w)) w
| AnsReadFault p : fl = true -> answer fl w (OpRead p) (RData None) w
| AnsTrunc p : answer fl w (OpTrunc p) (RErr None) (sset p "" w)
| AnsTruncFault p e : fl = true -> answer fl w (OpTrunc p) (RErr (Some e)) w
| AnsWrite p d : answer fl w (OpWrite p d) (RErr None) (overlay p d w)
| AnsWriteFault p d d' e :
    fl = true -> str_prefix d' d -> answer fl w (OpWrite p d) (RErr (Some e)) (overlay p d' w)
| AnsRemove p c : sget p w = Some c -> answer fl w (OpRemove p) (RErr None) (sdel p w)
| AnsRemoveNone p e :
    sget p w = None -> is_not_exist e = true -> answer fl w (OpRemove p) (RErr (Some e)) w
| AnsRemoveFault p e : fl = true -> answer fl w (OpRemove p) (RErr (Some e)) w
| AnsMkdir p : answer fl w (OpMkdir p) (RErr None) w
| AnsMkdirFault p e : fl = true -> answer fl w (OpMkdir p) (RErr (Some e)) w
| AnsReadDir p : answer fl w (OpReadDir p) (RNames (Ok (children p w))) w
| AnsReadDirNone p e :
    children p w = [] -> is_not_exist e = true -> answer fl w (OpReadDir p) (RNames (Err e)) w
| AnsReadDirFault p e : fl = true -> answer fl w (OpReadDir p) (RNames (Err e)) w
| AnsEnviron l : answer fl w OpEnviron (REnv l) w
| AnsFind plugin paths r : is_panic r = false -> answer fl w (OpFind plugin paths) (RStr r) w
| AnsExec path stdin env r : is_panic r = false -> answer fl w (OpExec path stdin env) (RStr r) w.

(** An operation and its answer. *)
Definition event : Type := op * resp.
Definition trace : Type := list event.

(** A complete run. *)
Inductive runs (fl : bool) {A} : prog A -> world -> trace -> world -> A -> Prop :=
| RunRet a w : runs fl (Ret a) w [] w a
| RunDo o k w r w1 tr w2 a :
    answer fl w o r w1 -> runs fl (k r) w1 tr w2 a -> runs fl (Do o k) w ((o, r) :: tr) w2 a.

(** A run cut short by a crash: after any operation, or in the middle of a write, of which any
    prefix of the data may have reached the file. *)
Inductive crashes (fl : bool) {A} : prog A -> world -> trace -> world -> Prop :=
| CrashNow p w : crashes fl p w [] w
| CrashTorn p d d' k w :
    str_prefix d' d -> crashes fl (Do (OpWrite p d) k) w [] (overlay p d' w)
| CrashDo o k w r w1 tr w2 :
    answer fl w o r w1 -> crashes fl (k r) w1 tr w2 -> crashes fl (Do o k) w ((o, r) :: tr) w2.

(** Any number of programs sharing the file system, one operation at a time in any order. *)
Fixpoint set_nth {A} (n : nat) (x : A) (l : list A) : list A :=
  match n, l with
  | O, _ :: l' => x :: l'
  | S n', y :: l' => y :: set_nth n' x l'
  | _, [] => []
  end.

Inductive interleaves (fl : bool) {A} :
  list (prog A) -> world -> list (nat * event) -> world -> list (prog A) -> Prop :=
| ILDone ps w : interleaves fl ps w [] w ps
| ILStep ps w i o k r w1 tr w2 qs :
    nth_error ps i = Some (Do o k) ->
    answer fl w o r w1 ->
    interleaves fl (set_nth i (k r) ps) w1 tr w2 qs ->
    interleaves fl ps w ((i, (o, r)) :: tr) w2 qs.

(** ** An executable interpreter for examples: the environment, a plugin finder and a plugin
    runner (which also sees how many plugins ran before) as functions; no faults. *)
Record oracle := {
  or_environ : list string;
  or_find : string -> list string -> res string;
  or_exec : nat -> string -> string -> list string -> res string
}.

Definition is_exec (o : op) : bool := match o with OpExec _ _ _ => true | _ => false end.

Definition respond (orc : oracle) (n : nat) (w : world) (o : op) : resp * world :=
  match o with
  | OpRead p => (RData (sget p w), w)
  | OpTrunc p => (RErr None, sset p "" w)
  | OpWrite p d => (RErr None, overlay p d w)
  | OpRemove p =>
      match sget p w with
      | Some _ => (RErr None, sdel p w)
      | None => (RErr (Some (ENotExist p)), w)
      end
  | OpMkdir _ => (RErr None, w)
  | OpReadDir p =>
      match children p w with
      | [] => (RNames (Err (ENotExist p)), w)
      | l => (RNames (Ok l), w)
      end
  | OpEnviron => (REnv (or_environ orc), w)
  | OpFind plugin paths => (RStr (or_find orc plugin paths), w)
  | OpExec path stdin env => (RStr (or_exec orc n path stdin env), w)
  end.

Fixpoint interp {A} (orc : oracle) (n : nat) (p : prog A) (w : world) : A * world * trace :=
  match p with
  | Ret a => (a, w, [])
  | Do o k =>
      let '(r, w1) := respond orc n w o in
      let '(a, w2, tr) := interp orc (if is_exec o then S n else n) (k r) w1 in
      (a, w2, (o, r) :: tr)
  end.
