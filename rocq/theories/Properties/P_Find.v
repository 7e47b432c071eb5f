(** C23: locating plugin binaries. *)
From Coq Require Import String Ascii List NArith Bool.
From Verif Require Import Model.GoStr Model.Errors Model.Path Model.Find Spec.EnvSpec Spec.PathSpec
  Proofs.StrP Proofs.PathP.
Import ListNotations.
Open Scope nat_scope.
Open Scope string_scope.

(** [stat f = Some true]: f is a regular file.  Success is exactly: an acceptable name, found as
    a regular file in some configured directory and in none before it. *)
Theorem C23_first_regular_file : forall stat plugin paths f,
  find_in_path stat plugin paths = Ok f <->
  plugin <> "" /\ lacks "/"%char plugin /\
  exists l1 p l2, paths = (l1 ++ p :: l2)%list /\ f = join_path [p; plugin] /\ stat f = Some true /\
    forall q, In q l1 -> stat (join_path [q; plugin]) <> Some true.
Proof. exact find_in_path_ok. Qed.
Theorem C23_otherwise_an_error : forall stat plugin paths,
  (forall f, find_in_path stat plugin paths <> Ok f) -> exists e, find_in_path stat plugin paths = Err e.
Proof.
  intros stat plugin paths H. destruct (find_in_path_total stat plugin paths) as [[f E]|E]; [|exact E].
  exfalso. exact (H f E).
Qed.
(** Apart from the names . and .. the file is an entry of a configured directory. *)
Theorem C23_direct_child : forall stat plugin paths f,
  find_in_path stat plugin paths = Ok f -> plugin <> "." -> plugin <> ".." ->
  exists p, In p paths /\ f = entry_of (clean p) plugin /\ dir_path f = clean p /\ in_clean_form (clean p).
Proof.
  intros stat plugin paths f H N1 N2. apply find_in_path_ok in H.
  destruct H as (N & L & l1 & p & l2 & -> & -> & _ & _).
  assert (S : simple plugin = true) by (apply simple_spec; repeat split; assumption).
  exists p. rewrite (join2_below p plugin S).
  split; [apply in_or_app; right; now left|]. split; [reflexivity|].
  split; [apply dir_entry; [apply clean_form|exact S]|apply clean_form].
Qed.
(** "Always a direct child of a configured directory" is false: the name . is accepted and yields
    the configured path itself, .. its lexical parent. *)
Theorem C23_dot_escapes_refuted :
  (forall stat p, clean p = p -> stat p = Some true -> find_in_path stat "." [p] = Ok p) /\
  (exists stat, find_in_path stat ".." ["/opt/tool/plugins"] = Ok "/opt/tool").
Proof.
  split.
  - intros stat p C S. apply find_in_path_ok. split; [discriminate|]. split; [unfold lacks; cbn; intuition discriminate|].
    exists [], p, []. split; [reflexivity|]. assert (N : p <> "") by (intros ->; discriminate).
    assert (J : join_path [p; "."] = p).
    { cbn [join_path]. destruct (String.eqb_spec p ""); [contradiction|].
      change (join "/" [p; "."]) with (p ++ String slash "."). transitivity (clean p); [|exact C].
      rewrite !clean_nonempty by (try apply app_nonempty; assumption).
      rewrite is_rooted_app by exact N. rewrite comps_app by exact N. cbn. now rewrite rev_involutive. }
    rewrite J. repeat split; [exact S|intros q []].
  - exists (fun f => if String.eqb f "/opt/tool" then Some true else None). vm_compute. reflexivity.
Qed.
Definition C23_stat (f : string) : option bool :=
  if mem_str f ["/b/bridge"; "/c/bridge"] then Some true else if String.eqb f "/a/bridge" then Some false else None.
Example C23_nonvacuous :
  find_in_path C23_stat "bridge" ["/x"; "/a/"; "/b/../b"; "/c"] = Ok "/b/bridge" /\
  find_in_path C23_stat "../b/bridge" ["/x"; "/a"] <> Ok "/b/bridge".
Proof. vm_compute. split; [reflexivity|discriminate]. Qed.

Print Assumptions C23_first_regular_file.
Print Assumptions C23_direct_child.
Print Assumptions C23_dot_escapes_refuted.
