(** Delegation from one plugin to another (pkg/invoke/delegate.go). *)
From Coq Require Import String Ascii List Arith NArith Bool.
From Verif Require Import Model.GoStr Model.Errors Model.Args Model.Path Model.Types Model.Invoke
  Model.Prog.
Import ListNotations.
Open Scope string_scope.
Open Scope prog_scope.

(** delegateCommon (delegate.go:25-37). *)
Definition delegate_common (delegatePlugin : string) : prog (res string) :=
  do env <- get_environ ;;
  find_plugin delegatePlugin (split_list (getenv env "CNI_PATH")).

Definition exec_delegate (pluginPath netconf verb : string) : prog (res string) :=
  do env <- get_environ ;;
  run_plugin pluginPath netconf (delegate_as_env env verb).

(** DelegateAdd (delegate.go:41-50). *)
Definition delegate_add (delegatePlugin netconf : string) : prog (res result) :=
  do! pluginPath <- delegate_common delegatePlugin ;;
  do! out <- exec_delegate pluginPath netconf "ADD" ;;
  lift (add_result netconf out).

(** delegateNoResult (delegate.go:57-64). *)
Definition delegate_no_result (delegatePlugin netconf verb : string) : prog (res unit) :=
  do! pluginPath <- delegate_common delegatePlugin ;;
  do! _ <- exec_delegate pluginPath netconf verb ;;
  lift (Ok tt).

(** DelegateCheck, DelegateDel, DelegateStatus, DelegateGC (delegate.go:52-82). *)
Definition delegate_check (p netconf : string) := delegate_no_result p netconf "CHECK".
Definition delegate_del (p netconf : string) := delegate_no_result p netconf "DEL".
Definition delegate_status (p netconf : string) := delegate_no_result p netconf "STATUS".
Definition delegate_gc (p netconf : string) := delegate_no_result p netconf "GC".
