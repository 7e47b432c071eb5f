(** Name validation (pkg/utils/utils.go). *)
From Coq Require Import String Ascii List Arith NArith Bool.
From Verif Require Import Model.GoStr Model.Errors Model.Utf8.
Import ListNotations.
Open Scope string_scope.

(** The character classes of cniValidNameChars (pkg/utils/utils.go:27-29). *)
Definition name_first (c : ascii) : bool := is_lower c || is_upper c || is_digit c.
Definition name_rest (c : ascii) : bool :=
  is_lower c || is_upper c || is_digit c ||
  Ascii.eqb c "_"%char || Ascii.eqb c "."%char || Ascii.eqb c "-"%char.

(** cniReg.MatchString: the fixed regexp ^[a-zA-Z0-9][a-zA-Z0-9_.\-]*$
    (pkg/utils/utils.go:35).  Without the (?m) flag, $ matches only at the very end of text. *)
Definition cni_reg_match (s : string) : bool :=
  match s with
  | EmptyString => false
  | String c s' => name_first c && sforall name_rest s'
  end.

(** utils.ValidateContainerID (pkg/utils/utils.go:38-46); [None] is nil. *)
Definition validate_container_id (containerID : string) : option goerr :=
  if String.eqb containerID "" then Some (ECNI ErrUnknownContainer "missing containerID" "")
  else if negb (cni_reg_match containerID) then
    Some (ECNI ErrInvalidEnvironmentVariables "invalid characters in containerID" containerID)
  else None.

(** utils.ValidateNetworkName (pkg/utils/utils.go:49-57). *)
Definition validate_network_name (networkName : string) : option goerr :=
  if String.eqb networkName "" then Some (ECNI ErrInvalidNetworkConfig "missing network name:" "")
  else if negb (cni_reg_match networkName) then
    Some (ECNI ErrInvalidNetworkConfig "invalid characters found in network name" networkName)
  else None.

(** maxInterfaceNameLength (pkg/utils/utils.go:32). *)
Definition max_interface_name_length : nat := 15.

(** utils.ValidateInterfaceName (pkg/utils/utils.go:65-82). *)
Definition validate_interface_name (ifName : string) : option goerr :=
  if (String.length ifName =? 0)%nat then
    Some (ECNI ErrInvalidEnvironmentVariables "interface name is empty" "")
  else if (max_interface_name_length <? String.length ifName)%nat then
    Some (ECNI ErrInvalidEnvironmentVariables "interface name is too long"
            "interface name should be less than 16 characters")
  else if String.eqb ifName "." || String.eqb ifName ".." then
    Some (ECNI ErrInvalidEnvironmentVariables "interface name is . or .." "")
  else if existsb (fun r => (r =? 47)%N || (r =? 58)%N || is_space_rune r) (runes ifName) then
    Some (ECNI ErrInvalidEnvironmentVariables
            "interface name contains / or : or whitespace characters" "")
  else None.
