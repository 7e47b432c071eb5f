(** Process environments as lists of entries, independent of the code. *)
From Coq Require Import String Ascii List.
Import ListNotations.
Open Scope string_scope.

Definition lacks (c : ascii) (s : string) : Prop := ~ In c (list_ascii_of_string s).

(** Entry [e] assigns [v] to [k]: it is k=v, split at the first equals sign. *)
Definition assigns (e k v : string) : Prop := lacks "="%char k /\ e = k ++ "=" ++ v.

(** [v] is the value of the last assignment to [k] in [env]. *)
Definition last_assigned (env : list string) (k v : string) : Prop :=
  exists l1 e l2, env = (l1 ++ e :: l2)%list /\ assigns e k v /\
                  forall e' v', In e' l2 -> ~ assigns e' k v'.
Definition never_assigned (env : list string) (k : string) : Prop :=
  forall e v, In e env -> ~ assigns e k v.

(** Each variable is assigned by at most one entry. *)
Definition each_once (env : list string) : Prop :=
  forall i j e1 e2 k v1 v2, nth_error env i = Some e1 -> nth_error env j = Some e2 ->
    assigns e1 k v1 -> assigns e2 k v2 -> i = j.

(** CNI_ARGS: a list of pairs whose parts contain neither = nor ; . *)
Definition plain (s : string) : Prop := lacks "="%char s /\ lacks ";"%char s.
Definition plain_pairs (l : list (string * string)) : Prop :=
  Forall (fun kv => plain (fst kv) /\ plain (snd kv)) l.
(** The value given last to a key. *)
Fixpoint last_value (k : string) (l : list (string * string)) : option string :=
  match l with
  | [] => None
  | (k', v) :: l' => match last_value k l' with
                     | Some x => Some x
                     | None => if String.eqb k k' then Some v else None
                     end
  end.
