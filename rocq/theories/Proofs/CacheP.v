(** The contents of cache entries. *)
From Coq Require Import String Ascii List Arith NArith Bool Lia.
From Verif Require Import Model.GoStr Model.Errors Model.Path Model.Json Model.GoJson Model.Base64 Model.Types
  Model.Conf Model.Prog Model.Api
  Spec.NameSpec Spec.JsonSpec Spec.ConfSpec Spec.RunSpec Spec.CacheSpec
  Proofs.StrP Proofs.JsonRT Proofs.GoJsonP Proofs.Base64P Proofs.ConfP Proofs.ProgP Proofs.ApiP.
Import ListNotations.
Open Scope nat_scope.
Open Scope string_scope.

Ltac keys := repeat match goal with |- context [key_is ?a ?b] => let v := eval vm_compute in (key_is a b) in change (key_is a b) with v end; cbv iota beta.

Lemma dec_map_any_norm cur l : dec_map_any cur (JObj l) =
  option_map (fun l' => Some (sset_all l' (match cur with Some m => m | None => [] end))) (norm_pairs l).
Proof.
  cbn [dec_map_any]. generalize (match cur with Some m => m | None => [] end). clear cur.
  induction l as [|[k x] l IH]; intros m; [reflexivity|].
  rewrite decode_members_cons. cbn [norm_pairs]. destruct (norm x) as [x'|]; [|reflexivity].
  rewrite IH. destruct (norm_pairs l); reflexivity.
Qed.
Lemma dec_map_any_obj l m : norm (JObj l) = Some (JObj m) -> dec_map_any None (JObj l) = Some (Some m).
Proof.
  rewrite dec_map_any_norm, norm_obj. destruct (norm_pairs l) as [l'|]; cbn; [|discriminate]. intros [= <-]. reflexivity.
Qed.
Lemma dec_pairs l : dec_all dec_pair (map (fun kv : string * string => JArr [JStr (fst kv); JStr (snd kv)]) l) = Some l.
Proof. induction l as [|[k v] l IH]; [reflexivity|]. cbn [map dec_all]. rewrite IH. reflexivity. Qed.

Lemma ascii_wf s : sforall (fun c => (code c <? 128)%N) s = true -> well_formed_text s.
Proof.
  induction s as [|c s IH]; intros H; [constructor|]. cbn in H. apply andb_true_iff in H. destruct H as [A B].
  apply N.ltb_lt in A. exact (wft_app (String c "") s (wft_ascii c A) (IH B)).
Qed.

(** What the decoder makes of the entry [enc_cached_info ci]. *)
Definition opt_nil {A} (l : list A) : option (list A) := match l with [] => None | _ => Some l end.
Lemma cached_info_rt kind cid config ifn net netns args (caps : smap json) raw m :
  well_formed_text kind -> well_formed_text cid -> well_formed_text ifn -> well_formed_text net -> well_formed_text netns ->
  Forall (fun kv => well_formed_text (fst kv) /\ well_formed_text (snd kv)) args ->
  encodable (JObj [("capabilityArgs", enc_map caps)]) -> reencoded (enc_map caps) (JObj m) ->
  match raw with Some r => canonical (JObj r) /\ encodable (JObj [("result", JObj r)]) | None => True end ->
  let j := enc_cached_info {| ci_kind := kind; ci_container := cid; ci_config := config; ci_ifname := ifn; ci_network := net;
      ci_netns := netns; ci_args := Some args; ci_caps := Some caps; ci_result := raw |} in
  encodable j /\
  unmarshal_cached_info (print j) = Some
    {| ci_kind := kind; ci_container := cid; ci_config := config; ci_ifname := ifn; ci_network := net; ci_netns := netns;
       ci_args := opt_nil args; ci_caps := match caps with [] => None | _ => Some m end;
       ci_result := match raw with Some (kv :: r) => Some (kv :: r) | _ => None end |}.
Proof.
  intros W1 W2 W3 W4 W5 WA WC NC WR j.
  assert (X : encodable j).
  { unfold j, enc_cached_info. cbn [ci_kind ci_container ci_config ci_ifname ci_network ci_netns ci_args ci_caps ci_result].
    split.
    - apply jwf_obj. repeat rewrite Forall_app. repeat split.
      + repeat (apply Forall_cons; [cbn [fst snd jwf]; split; [apply ascii_wf; reflexivity|first [assumption | apply ascii_wf, b64_ascii]]|]). constructor.
      + unfold fld_str, omit_if. destruct (String.eqb netns ""); [constructor|]. apply Forall_cons; [|constructor]. cbn [fst snd jwf]; split; [apply ascii_wf; reflexivity|assumption].
      + destruct args as [|kv args]; [constructor|]. apply Forall_cons; [|constructor]. cbn [fst snd]. split; [apply ascii_wf; reflexivity|].
        unfold enc_args. apply jwf_arr. apply Forall_forall. intros x Hx. apply in_map_iff in Hx. destruct Hx as (y & <- & Hy).
        rewrite Forall_forall in WA. destruct (WA y Hy). cbn [jwf fold_right]. auto.
      + destruct caps as [|kv caps]; [constructor|]. destruct WC as [WC _]. now apply jwf_obj in WC.
      + destruct raw as [[|kv r]|]; [constructor| |constructor]. destruct WR as [CR [WR _]]. apply jwf_obj in WR. 
        unfold enc_map. apply canonical_obj in CR. rewrite (sset_all_id _ (proj1 CR)). exact WR.
    - change 10000%N with (N.succ 9999). apply jdepth_obj. repeat rewrite Forall_app. repeat split.
      + repeat (apply Forall_cons; [cbn; lia|]). constructor.
      + unfold fld_str, omit_if. destruct (String.eqb netns ""); [constructor|]. apply Forall_cons; [cbn; lia|constructor].
      + destruct args as [|kv args]; [constructor|]. apply Forall_cons; [|constructor]. cbn [fst snd].
        unfold enc_args. change 9999%N with (N.succ 9998). apply jdepth_arr. apply Forall_forall. intros x Hx.
        apply in_map_iff in Hx. destruct Hx as (y & <- & Hy). cbn. lia.
      + destruct caps as [|kv caps]; [constructor|]. destruct WC as [_ WC]. change 10000%N with (N.succ 9999) in WC. now apply jdepth_obj in WC.
      + destruct raw as [[|kv r]|]; [constructor| |constructor]. destruct WR as [CR [_ WR]].
        change 10000%N with (N.succ 9999) in WR. apply jdepth_obj in WR.
        unfold enc_map. apply canonical_obj in CR. rewrite (sset_all_id _ (proj1 CR)). exact WR. }
  split; [exact X|].
  unfold unmarshal_cached_info. rewrite (parse_print _ X). cbn [obind]. unfold j, enc_cached_info, decode_struct.
  cbn [ci_kind ci_container ci_config ci_ifname ci_network ci_netns ci_args ci_caps ci_result].
  rewrite decode_members_app.
  rewrite decode_members_cons. unfold cached_info_step at 1. keys. cbn [dec_string option_map cached_info_zero ci_kind ci_container ci_config ci_ifname ci_network ci_netns ci_args ci_caps ci_result].
  rewrite decode_members_cons. unfold cached_info_step at 1. keys. cbn [dec_string option_map cached_info_zero ci_kind ci_container ci_config ci_ifname ci_network ci_netns ci_args ci_caps ci_result].
  rewrite decode_members_cons. unfold cached_info_step at 1. keys. cbn [dec_bytes option_map cached_info_zero ci_kind ci_container ci_config ci_ifname ci_network ci_netns ci_args ci_caps ci_result].
  rewrite b64_round_trip. cbn [option_map].
  rewrite decode_members_cons. unfold cached_info_step at 1. keys. cbn [dec_string option_map cached_info_zero ci_kind ci_container ci_config ci_ifname ci_network ci_netns ci_args ci_caps ci_result].
  rewrite decode_members_cons. unfold cached_info_step at 1. keys. cbn [dec_string option_map cached_info_zero ci_kind ci_container ci_config ci_ifname ci_network ci_netns ci_args ci_caps ci_result].
  rewrite decode_members_nil.
  rewrite decode_members_app.
  match goal with |- match decode_members _ ?z (fld_str _ _) with _ => _ end = _ =>
    assert (E : decode_members cached_info_step z (fld_str "netns" netns) =
      Some {| ci_kind := kind; ci_container := cid; ci_config := config; ci_ifname := ifn; ci_network := net; ci_netns := netns;
              ci_args := None; ci_caps := None; ci_result := None |}) end.
  { unfold fld_str, omit_if. destruct (String.eqb_spec netns "") as [->|N]; [reflexivity|].
    rewrite decode_members_cons. unfold cached_info_step at 1. keys. reflexivity. }
  rewrite E. clear E. rewrite decode_members_app.
  match goal with |- match decode_members _ ?z (match args with _ => _ end) with _ => _ end = _ =>
    assert (E : decode_members cached_info_step z (match args with [] => [] | kv :: l => [("cniArgs", enc_args (kv :: l))] end) =
      Some {| ci_kind := kind; ci_container := cid; ci_config := config; ci_ifname := ifn; ci_network := net; ci_netns := netns;
              ci_args := opt_nil args; ci_caps := None; ci_result := None |}) end.
  { destruct args as [|kv args]; [reflexivity|]. rewrite decode_members_cons. unfold cached_info_step at 1. keys.
    unfold enc_args. rewrite dec_pairs. reflexivity. }
  rewrite E. clear E. rewrite decode_members_app.
  match goal with |- match decode_members _ ?z (match caps with _ => _ end) with _ => _ end = _ =>
    assert (E : decode_members cached_info_step z (match caps with [] => [] | kv :: l => [("capabilityArgs", enc_map (kv :: l))] end) =
      Some {| ci_kind := kind; ci_container := cid; ci_config := config; ci_ifname := ifn; ci_network := net; ci_netns := netns;
              ci_args := opt_nil args; ci_caps := match caps with [] => None | _ => Some m end; ci_result := None |}) end.
  { destruct caps as [|kv caps]; [reflexivity|]. rewrite decode_members_cons. unfold cached_info_step at 1. keys.
    cbn [ci_caps]. unfold enc_map at 1. rewrite (dec_map_any_obj _ _ NC). reflexivity. }
  rewrite E. clear E.
  destruct raw as [[|kv r]|]; [reflexivity| |reflexivity].
  rewrite decode_members_cons. unfold cached_info_step at 1. keys. cbn [ci_result].
  destruct WR as [CR WR]. unfold enc_map. pose proof (proj1 (proj1 (canonical_obj _) CR)) as S. rewrite (sset_all_id _ S).
  rewrite (dec_map_any_obj _ _ (canonical_norm _ CR)). reflexivity.
Qed.
