(** CNI result types: encoding and decoding. *)
From Coq Require Import String Ascii List Arith NArith ZArith Bool Lia.
From Verif Require Import Model.GoStr Model.Errors Model.Json Model.Num Model.GoJson Model.NetIP Model.Types
  Spec.NameSpec Spec.JsonSpec Spec.TypesSpec Proofs.StrP Proofs.JsonP Proofs.JsonRT Proofs.NumP Proofs.NetIPP
  Proofs.GoJsonP Proofs.ConfP.
Import ListNotations.
Open Scope nat_scope.
Open Scope string_scope.

(** ** Objects with optional members *)
Definition fields := list (string * option json).
Fixpoint present (fs : fields) : list (string * json) :=
  match fs with
  | [] => []
  | (k, Some v) :: fs' => (k, v) :: present fs'
  | (_, None) :: fs' => present fs'
  end.
Lemma present_app a b : present (a ++ b)%list = (present a ++ present b)%list.
Proof. induction a as [|[k [v|]] a IH]; cbn; now rewrite ?IH. Qed.
Lemma present_keys fs : NoDup (map fst fs) -> NoDup (map fst (present fs)).
Proof.
  induction fs as [|[k [v|]] fs IH]; cbn; intros H; [constructor| |]; apply NoDup_cons_iff in H as [N H]; [|auto].
  constructor; [|auto]. intros I. apply N. clear -I. induction fs as [|[k' [v'|]] fs IH]; cbn in *; [easy| |]; intuition.
Qed.
Definition join_opt {A} (o : option (option A)) : option A := match o with Some x => x | None => None end.
Lemma present_get k fs : NoDup (map fst fs) -> sget k (present fs) = join_opt (sget k fs).
Proof.
  induction fs as [|[k' [v|]] fs IH]; cbn; intros H; [reflexivity| |]; apply NoDup_cons_iff in H as [N H].
  - destruct (String.eqb k k'); [reflexivity|auto].
  - destruct (String.eqb_spec k k') as [->|]; [|auto]. rewrite IH by assumption.
    destruct (sget k' fs) eqn:E; [|reflexivity]. exfalso. apply N. apply sget_In in E. now apply (in_map fst) in E.
Qed.
Lemma present_lb k (fs : fields) : lb k fs -> ssorted fs -> lb k (present fs).
Proof.
  revert k. induction fs as [|[k' [v|]] fs IH]; intros k L S; [exact L|exact L|]. cbn [present].
  apply ssorted_cons in S as [L' S]. apply IH; [|exact S]. destruct fs as [|[k'' o] fs]; [exact I|].
  cbn in *. eapply compare_trans; eassumption.
Qed.
Lemma present_sorted (fs : fields) : ssorted fs -> ssorted (present fs).
Proof.
  induction fs as [|[k [v|]] fs IH]; intros S; [exact I| |]; apply ssorted_cons in S as [L S]; cbn [present]; [|auto].
  apply ssorted_cons. split; [now apply present_lb|auto].
Qed.
Definition nrm_field (f f' : string * option json) : Prop :=
  fst f = fst f' /\ match snd f, snd f' with Some v, Some v' => norm v = Some v' | None, None => True | _, _ => False end.
Lemma nrm_keys fs fs' : Forall2 nrm_field fs fs' -> map fst fs = map fst fs'.
Proof. induction 1 as [|f f' fs fs' [E _] H IH]; cbn; congruence. Qed.
Lemma norm_present fs fs' : Forall2 nrm_field fs fs' -> NoDup (map fst fs) ->
  norm (JObj (present fs)) = Some (JObj (present (sset_all fs' []))).
Proof.
  intros H N. assert (P : norm_pairs (present fs) = Some (present fs')).
  { clear N. induction H as [|[k o] [k' o'] fs fs' [E V] H IH]; [reflexivity|]. cbn in E, V. subst k'.
    destruct o as [v|], o' as [v'|]; try easy. cbn [present norm_pairs]. now rewrite V, IH. }
  rewrite norm_obj, P. cbn [option_map]. do 2 f_equal. rewrite (nrm_keys _ _ H) in N.
  assert (S : ssorted (sset_all fs' [])) by now apply sset_all_sorted.
  apply ssorted_ext; [now apply sset_all_sorted|now apply present_sorted|].
  intros k. rewrite sget_sset_all, last_get_nodup by now apply present_keys. rewrite !present_get by (assumption || now apply ssorted_nodup).
  rewrite sget_sset_all, last_get_nodup by assumption. destruct (sget k fs') as [[v|]|]; reflexivity.
Qed.
Lemma jwf_present fs : Forall (fun f => well_formed_text (fst f) /\ wf_opt jwf (snd f)) fs -> jwf (JObj (present fs)).
Proof.
  intros H. apply jwf_obj. induction H as [|[k [v|]] fs [K V] H IH]; cbn [present]; [constructor| |exact IH].
  constructor; [now split|exact IH].
Qed.
Lemma jdepth_present d fs : Forall (fun f => wf_opt (fun v => jdepth v <= d)%N (snd f)) fs -> (jdepth (JObj (present fs)) <= N.succ d)%N.
Proof.
  intros H. apply jdepth_obj. induction H as [|[k [v|]] fs V H IH]; cbn [present]; [constructor| |exact IH].
  constructor; assumption.
Qed.

(** ** Members *)
Definition ostr (s : string) : option json := if String.eqb s "" then None else Some (JStr s).
Definition oint (z : Z) : option json := if (z =? 0)%Z then None else Some (enc_int z).
Definition oip (a : ip) : option json := match a with [] => None | _ => Some (JStr (ip_string a)) end.
Definition oarr (l : list json) : option json := match l with [] => None | _ => Some (JArr l) end.
Lemma fld_str_present k s : fld_str k s = present [(k, ostr s)].
Proof. unfold fld_str, omit_if, ostr. destruct (String.eqb s ""); reflexivity. Qed.
Lemma fld_int_present k z : fld_int k z = present [(k, oint z)].
Proof. unfold fld_int, omit_if, oint. destruct (z =? 0)%Z; reflexivity. Qed.
Lemma fld_optint_present k z : fld_optint k z = present [(k, option_map enc_int z)].
Proof. destruct z; reflexivity. Qed.
Lemma fld_strs_present k l : fld_strs k l = present [(k, oarr (map JStr l))].
Proof. destruct l; reflexivity. Qed.
Lemma fld_arr_present k l : fld_arr k l = present [(k, oarr l)].
Proof. destruct l; reflexivity. Qed.
Lemma fld_ip_present k a : wf_gw a -> fld_ip k a = Some (present [(k, oip a)]).
Proof.
  intros [->|B]; [reflexivity|]. destruct a as [|x a]; [reflexivity|]. unfold fld_ip, enc_ip, oip. destruct B as [L _]. rewrite L. reflexivity.
Qed.

Section Fold.
Context {A : Type} (step : A -> string -> json -> option A).
Lemma fold_none a k fs : decode_members step a (present ((k, None) :: fs)) = decode_members step a (present fs).
Proof. reflexivity. Qed.
Lemma fold_req a a' k v fs : step a k v = Some a' ->
  decode_members step a (present ((k, Some v) :: fs)) = decode_members step a' (present fs).
Proof. intros H. cbn [present]. now rewrite decode_members_cons, H. Qed.
Lemma fold_str a a' k s fs : step a k (JStr s) = Some a' -> (s = "" -> a' = a) ->
  decode_members step a (present ((k, ostr s) :: fs)) = decode_members step a' (present fs).
Proof.
  intros H Z. unfold ostr. destruct (String.eqb_spec s ""); [rewrite (Z e); apply fold_none|now apply fold_req].
Qed.
Lemma fold_int a a' k z fs : step a k (enc_int z) = Some a' -> (z = 0%Z -> a' = a) ->
  decode_members step a (present ((k, oint z) :: fs)) = decode_members step a' (present fs).
Proof.
  intros H Z. unfold oint. destruct (Z.eqb_spec z 0); [rewrite (Z e); apply fold_none|now apply fold_req].
Qed.
Lemma fold_ip a a' k g fs : (g <> [] -> step a k (JStr (ip_string g)) = Some a') -> (g = [] -> a' = a) ->
  decode_members step a (present ((k, oip g) :: fs)) = decode_members step a' (present fs).
Proof. intros H Z. unfold oip. destruct g; [now rewrite (Z eq_refl)|now apply fold_req, H]. Qed.
Lemma fold_arr a a' k l fs : step a k (JArr l) = Some a' -> (l = [] -> a' = a) ->
  decode_members step a (present ((k, oarr l) :: fs)) = decode_members step a' (present fs).
Proof. intros H Z. unfold oarr. destruct l; [now rewrite (Z eq_refl)|now apply fold_req]. Qed.
Lemma fold_end a a' : a = a' -> decode_members step a (present []) = Some a'.
Proof. now intros ->. Qed.
End Fold.

Lemma dec_ip_string a : wf_gw a -> a <> [] -> dec_ip (JStr (ip_string a)) = Some a.
Proof.
  intros [->|B] N; [easy|]. cbn [dec_ip]. destruct (String.eqb_spec (ip_string a) ""); [now apply ip_string_nonempty in B|]. now apply parse_ip_string.
Qed.
Lemma dec_ipnet_string p : prefix_form p -> dec_ipnet (enc_ipnet p) = Some p.
Proof. intros H. unfold enc_ipnet. cbn [dec_ipnet]. now apply parse_cidr_string. Qed.
Lemma int64_in z : int64 z -> in_int64 z = true.
Proof. unfold int64, in_int64, min_int64, max_int64. intros. apply andb_true_iff. split; apply Z.leb_le; lia. Qed.
Lemma exact_int64 z : exact z -> int64 z.
Proof. unfold exact, int64. lia. Qed.
Lemma dec_int_enc c z : int64 z -> dec_int c (enc_int z) = Some z.
Proof. intros H. cbn [dec_int enc_int]. apply atoi_itoa. now apply int64_in. Qed.
Lemma dec_ptr_int z : int64 z -> dec_ptr (dec_int 0%Z) (enc_int z) = Some (Some z).
Proof. intros H. unfold dec_ptr. cbn [enc_int]. fold (enc_int z). now rewrite dec_int_enc. Qed.
Lemma dec_strs_enc l : dec_strs (JArr (map JStr l)) = Some l.
Proof. unfold dec_strs. cbn [dec_list]. induction l as [|s l IH]; [reflexivity|]. cbn [map dec_all]. now rewrite IH. Qed.

Ltac keyed := repeat match goal with |- context [key_is ?a ?b] => let v := eval vm_compute in (key_is a b) in change (key_is a b) with v end; cbv iota beta.
Ltac projs := cbn [d_nameservers d_domain d_search d_options r_dst r_gw r_mtu r_advmss r_priority r_table r_scope
  i2_ip i2_gateway i2_routes v2_version v2_ip4 v2_ip6 v2_dns if4_name if4_mac if4_sandbox i4_version i4_interface i4_address i4_gateway
  v4_version v4_interfaces v4_ips v4_routes v4_dns if1_name if1_mac if1_mtu if1_sandbox if1_socket if1_pci i1_interface i1_address i1_gateway
  v1_version v1_interfaces v1_ips v1_routes v1_dns option_map dec_string].
Ltac fold1 rw :=
  eapply eq_trans;
  [ match goal with
    | |- decode_members _ _ (present ((_, ostr _) :: _)) = _ => eapply fold_str; [keyed; projs; reflexivity|intros ->; reflexivity]
    | |- decode_members _ _ (present ((_, oint _) :: _)) = _ => eapply fold_int; [keyed; rewrite dec_int_enc by rw; projs; reflexivity|intros ->; reflexivity]
    | |- decode_members _ _ (present ((_, oip _) :: _)) = _ => eapply fold_ip; [intros ?; keyed; rewrite dec_ip_string by rw; projs; reflexivity|intros ->; reflexivity]
    | |- decode_members _ _ (present ((_, oarr (map JStr _)) :: _)) = _ =>
        eapply fold_arr; [keyed; rewrite dec_strs_enc; projs; reflexivity|intros Z%map_eq_nil; subst; reflexivity]
    | |- decode_members _ _ (present ((_, None) :: _)) = _ => apply fold_none
    | |- decode_members _ _ (present ((_, Some (enc_int _)) :: _)) = _ => eapply fold_req; keyed; rewrite dec_ptr_int by rw; projs; reflexivity
    | |- decode_members _ _ (present ((_, Some (enc_ipnet _)) :: _)) = _ => eapply fold_req; keyed; rewrite dec_ipnet_string by rw; projs; reflexivity
    | |- decode_members _ _ (present ((_, Some (JStr _)) :: _)) = _ => eapply fold_req; keyed; projs; reflexivity
    end |].

(** ** Leaf structs *)
Definition keeps (o : option json) : Prop := wf_opt (fun v => norm v = Some v) o.
Lemma keeps_str s : keeps (ostr s).
Proof. unfold ostr. destruct (String.eqb s ""); reflexivity. Qed.
Lemma keeps_int z : exact z -> keeps (oint z).
Proof. intros H. unfold oint. destruct (z =? 0)%Z; [exact I|]. cbn. now rewrite canon_num_itoa. Qed.
Lemma keeps_int1 z : exact z -> keeps (Some (enc_int z)).
Proof. intros H. cbn. now rewrite canon_num_itoa. Qed.
Lemma keeps_optint z : wf_opt exact z -> keeps (option_map enc_int z).
Proof. destruct z; [apply keeps_int1|reflexivity]. Qed.
Lemma keeps_ip a : keeps (oip a).
Proof. destruct a; reflexivity. Qed.
Lemma norm_strs l : norm_all (map JStr l) = Some (map JStr l).
Proof. induction l as [|s l IH]; [reflexivity|]. cbn [map norm_all norm]. now rewrite IH. Qed.
Lemma keeps_strs l : keeps (oarr (map JStr l)).
Proof. destruct l as [|s l]; [reflexivity|]. change (norm (JArr (map JStr (s :: l))) = Some (JArr (map JStr (s :: l)))). now rewrite norm_arr, norm_strs. Qed.
Lemma keeps_nrm fs : Forall (fun f => keeps (snd f)) fs -> Forall2 nrm_field fs fs.
Proof. induction 1 as [|[k o] fs H _ IH]; constructor; [split; [reflexivity|]; destruct o; exact H|exact IH]. Qed.
Lemma norm_leaf fs gs : Forall (fun f => keeps (snd f)) fs -> NoDup (map fst fs) -> sset_all fs [] = gs -> norm (JObj (present fs)) = Some (JObj (present gs)).
Proof. intros H N <-. apply norm_present; [now apply keeps_nrm|exact N]. Qed.

Lemma ascii_wft s : ascii_text s -> well_formed_text s.
Proof.
  induction s as [|c s IH]; intros H; [constructor|]. unfold ascii_text in *. cbn [sforall] in H. apply andb_true_iff in H as [H1 H2].
  change (String c s) with (String c "" ++ s). apply wft_app; [apply wft_ascii; now apply N.ltb_lt|now apply IH].
Qed.
Lemma and_assoc_l (A B C : Prop) : A /\ B /\ C <-> (A /\ B) /\ C.
Proof. tauto. Qed.
Definition fine (o : option json) : Prop := wf_opt (fun v => jwf v /\ (jdepth v <= 1)%N) o.
Lemma fine_str s : well_formed_text s -> fine (ostr s).
Proof. intros H. unfold ostr. destruct (String.eqb s ""); [exact I|]. split; [exact H|apply N.le_0_l]. Qed.
Lemma fine_jstr s : well_formed_text s -> fine (Some (JStr s)).
Proof. intros H. split; [exact H|apply N.le_0_l]. Qed.
Lemma fine_int1 z : fine (Some (enc_int z)).
Proof. split; [apply number_lit_spec, valid_number_itoa|apply N.le_0_l]. Qed.
Lemma fine_int z : fine (oint z).
Proof. unfold oint. destruct (z =? 0)%Z; [exact I|apply fine_int1]. Qed.
Lemma fine_optint z : fine (option_map enc_int z).
Proof. destruct z; [apply fine_int1|exact I]. Qed.
Lemma fine_ip a : wf_gw a -> fine (oip a).
Proof.
  intros [->|B]; [exact I|]. destruct a; [exact I|]. split; [|apply N.le_0_l]. cbn [jwf]. now apply ascii_wft, ip_string_ascii.
Qed.
Lemma fine_ipnet p : prefix_form p -> fine (Some (enc_ipnet p)).
Proof. intros H. split; [|apply N.le_0_l]. cbn [jwf enc_ipnet]. now apply ascii_wft, ipnet_ascii. Qed.
Lemma fine_strs l : Forall well_formed_text l -> fine (oarr (map JStr l)).
Proof.
  intros H. destruct l as [|s l]; [exact I|]. split.
  - apply jwf_arr. apply Forall_map. exact H.
  - change 1%N with (N.succ 0). apply jdepth_arr. apply Forall_map. apply Forall_forall. intros x _. apply N.le_refl.
Qed.
Lemma fine_obj fs : Forall (fun f => ascii_text (fst f)) fs -> Forall (fun f => fine (snd f)) fs ->
  jwf (JObj (present fs)) /\ (jdepth (JObj (present fs)) <= 2)%N.
Proof.
  intros K V. split.
  - apply jwf_present. rewrite Forall_forall in *. intros f F. split; [now apply ascii_wft, K|].
    specialize (V f F). destruct (snd f); [apply V|exact I].
  - change 2%N with (N.succ 1). apply jdepth_present. rewrite Forall_forall in *. intros f F. specialize (V f F). destruct (snd f); [apply V|exact I].
Qed.
Ltac alls t := repeat (apply Forall_cons; [t|]); apply Forall_nil.
Ltac literal_keys := alls ltac:(vm_compute; reflexivity).
Ltac nodup_keys := cbn [map fst]; repeat (apply NoDup_cons; [cbn [In]; intuition discriminate|]); apply NoDup_nil.
Ltac folds rw := repeat fold1 rw; apply fold_end; reflexivity.

(** A decodable encoding: [raw] as Marshal writes it, and again after a trip through interface{}. *)
Definition raw_ok {A} (dec : json -> option A) (d : N) (j : json) (a : A) : Prop :=
  is_obj j = true /\ jwf j /\ (jdepth j <= d)%N /\ dec j = Some a.
Definition nrm_ok {A} (dec : json -> option A) (j : json) (a : A) : Prop :=
  exists j', norm j = Some j' /\ is_obj j' = true /\ dec j' = Some a.

Definition dns_fields (d : dns) : fields :=
  [("nameservers", oarr (map JStr (d_nameservers d))); ("domain", ostr (d_domain d));
   ("search", oarr (map JStr (d_search d))); ("options", oarr (map JStr (d_options d)))].
Lemma enc_dns_present d : enc_dns d = JObj (present (dns_fields d)).
Proof. unfold enc_dns. rewrite !fld_strs_present, fld_str_present, <- !present_app. reflexivity. Qed.
Lemma dns_raw d : wf_dns d -> raw_ok (dec_dns dns_zero) 2 (enc_dns d) d.
Proof.
  intros (A & B & C & D). rewrite enc_dns_present. split; [reflexivity|]. rewrite and_assoc_l. split.
  - apply fine_obj; [literal_keys|]. unfold dns_fields. repeat (apply Forall_cons; [cbn [snd]; auto using fine_strs, fine_str|]). constructor.
  - destruct d as [ns dom se op]. unfold dec_dns, dns_fields, decode_struct, dns_zero. cbn [d_nameservers d_domain d_search d_options].
    folds idtac.
Qed.
Definition dns_sorted (d : dns) : fields :=
  [("domain", ostr (d_domain d)); ("nameservers", oarr (map JStr (d_nameservers d)));
   ("options", oarr (map JStr (d_options d))); ("search", oarr (map JStr (d_search d)))].
Lemma dns_nrm d : nrm_ok (dec_dns dns_zero) (enc_dns d) d.
Proof.
  rewrite enc_dns_present. exists (JObj (present (dns_sorted d))). split; [|split; [reflexivity|]].
  - apply norm_leaf; [|nodup_keys|reflexivity]. unfold dns_fields. alls ltac:(cbn [snd]; auto using keeps_strs, keeps_str).
  - destruct d as [ns dom se op]. unfold dec_dns, decode_struct, dns_zero, dns_sorted.
    cbn [d_nameservers d_domain d_search d_options]. folds idtac.
Qed.

Definition route_fields (r : route) : fields :=
  [("dst", Some (enc_ipnet (r_dst r))); ("gw", oip (r_gw r)); ("mtu", oint (r_mtu r)); ("advmss", oint (r_advmss r));
   ("priority", oint (r_priority r)); ("table", option_map enc_int (r_table r)); ("scope", option_map enc_int (r_scope r))].
Definition route_sorted (r : route) : fields :=
  [("advmss", oint (r_advmss r)); ("dst", Some (enc_ipnet (r_dst r))); ("gw", oip (r_gw r)); ("mtu", oint (r_mtu r)); 
   ("priority", oint (r_priority r)); ("scope", option_map enc_int (r_scope r)); ("table", option_map enc_int (r_table r))].
Section Ints.
Context (I : Z -> Prop).
Ltac ints := cbn [wf_opt] in *; auto.
Lemma enc_route_present r : wf_route I prefix_form r -> enc_route r = Some (JObj (present (route_fields r))).
Proof.
  intros (_ & G & _). unfold enc_route. rewrite (fld_ip_present _ _ G). cbn [obind].
  rewrite !fld_int_present, !fld_optint_present. change [("dst", enc_ipnet (r_dst r))] with (present [("dst", Some (enc_ipnet (r_dst r)))]).
  rewrite <- !present_app. reflexivity.
Qed.
Lemma route_raw r : wf_route I prefix_form r -> (forall z, I z -> int64 z) -> raw_ok dec_route 2 (JObj (present (route_fields r))) r.
Proof.
  intros (A & B & C & D & E & F & G) Z. split; [reflexivity|]. rewrite and_assoc_l. split.
  - apply fine_obj; [literal_keys|]. unfold route_fields. alls ltac:(cbn [snd]; auto using fine_ipnet, fine_ip, fine_int, fine_optint).
  - destruct r as [dst gw mtu adv pri tab sc]. cbn [r_dst r_gw r_mtu r_advmss r_priority r_table r_scope] in *.
    unfold dec_route, route_fields, decode_struct, route_zero. cbn [r_dst r_gw r_mtu r_advmss r_priority r_table r_scope].
    destruct tab as [tab|], sc as [sc|]; cbn [option_map]; folds ints.
Qed.
Lemma route_nrm r : wf_route I prefix_form r -> (forall z, I z -> exact z) -> nrm_ok dec_route (JObj (present (route_fields r))) r.
Proof.
  intros (A & B & C & D & E & F & G) Z. exists (JObj (present (route_sorted r))). split; [|split; [reflexivity|]].
  - apply norm_leaf; [|nodup_keys|reflexivity]. unfold route_fields.
    assert (forall o, wf_opt I o -> wf_opt exact o) by (intros [z|]; cbn; auto).
    alls ltac:(cbn [snd]; auto using keeps_ip, keeps_int, keeps_optint; try reflexivity).
  - assert (Z' : forall z, I z -> int64 z) by (intros; apply exact_int64; auto). clear Z.
    destruct r as [dst gw mtu adv pri tab sc]. cbn [r_dst r_gw r_mtu r_advmss r_priority r_table r_scope] in *.
    unfold dec_route, route_sorted, decode_struct, route_zero. cbn [r_dst r_gw r_mtu r_advmss r_priority r_table r_scope].
    destruct tab as [tab|], sc as [sc|]; cbn [option_map]; folds ints.
Qed.

Definition if040_fields (i : if040) : fields :=
  [("name", Some (JStr (if4_name i))); ("mac", ostr (if4_mac i)); ("sandbox", ostr (if4_sandbox i))].
Definition if040_sorted (i : if040) : fields :=
  [("mac", ostr (if4_mac i)); ("name", Some (JStr (if4_name i))); ("sandbox", ostr (if4_sandbox i))].
Lemma enc_if040_present i : enc_if040 i = Some (JObj (present (if040_fields i))).
Proof. unfold enc_if040. rewrite !fld_str_present. change [("name", JStr (if4_name i))] with (present [("name", Some (JStr (if4_name i)))]). rewrite <- !present_app. reflexivity. Qed.
Lemma if040_raw i : wf_if040 i -> raw_ok dec_if040 2 (JObj (present (if040_fields i))) i.
Proof.
  intros (A & B & C). split; [reflexivity|]. rewrite and_assoc_l. split.
  - apply fine_obj; [literal_keys|]. unfold if040_fields. alls ltac:(cbn [snd]; auto using fine_str, fine_jstr).
  - destruct i as [a b c]. unfold dec_if040, if040_fields, decode_struct. projs. folds ints.
Qed.
Lemma if040_nrm i : nrm_ok dec_if040 (JObj (present (if040_fields i))) i.
Proof.
  exists (JObj (present (if040_sorted i))). split; [|split; [reflexivity|]].
  - apply norm_leaf; [|nodup_keys|reflexivity]. unfold if040_fields. alls ltac:(cbn [snd]; auto using keeps_str; try reflexivity).
  - destruct i as [a b c]. unfold dec_if040, if040_sorted, decode_struct. projs. folds ints.
Qed.

Definition ipc040_fields (c : ipc040) : fields :=
  [("version", Some (JStr (i4_version c))); ("interface", option_map enc_int (i4_interface c));
   ("address", Some (enc_ipnet (i4_address c))); ("gateway", oip (i4_gateway c))].
Definition ipc040_sorted (c : ipc040) : fields :=
  [("address", Some (enc_ipnet (i4_address c))); ("gateway", oip (i4_gateway c));
   ("interface", option_map enc_int (i4_interface c)); ("version", Some (JStr (i4_version c)))].
Lemma enc_ipc040_present c : wf_ipc040 I prefix_form c -> enc_ipc040 c = Some (JObj (present (ipc040_fields c))).
Proof.
  intros (_ & _ & _ & G). unfold enc_ipc040. rewrite (fld_ip_present _ _ G). cbn [obind]. rewrite fld_optint_present.
  change [("version", JStr (i4_version c))] with (present [("version", Some (JStr (i4_version c)))]).
  change [("address", enc_ipnet (i4_address c))] with (present [("address", Some (enc_ipnet (i4_address c)))]).
  rewrite <- !present_app. reflexivity.
Qed.
Lemma ipc040_raw c : wf_ipc040 I prefix_form c -> (forall z, I z -> int64 z) -> raw_ok dec_ipc040 2 (JObj (present (ipc040_fields c))) c.
Proof.
  intros (A & B & C & D) Z. split; [reflexivity|]. rewrite and_assoc_l. split.
  - apply fine_obj; [literal_keys|]. unfold ipc040_fields. alls ltac:(cbn [snd]; auto using fine_jstr, fine_ip, fine_ipnet, fine_optint).
  - destruct c as [v i a g]. unfold dec_ipc040, ipc040_fields, decode_struct. cbn [i4_version i4_interface i4_address i4_gateway] in *.
    destruct i as [i|]; projs; folds ints.
Qed.
Lemma ipc040_nrm c : wf_ipc040 I prefix_form c -> (forall z, I z -> exact z) -> nrm_ok dec_ipc040 (JObj (present (ipc040_fields c))) c.
Proof.
  intros (A & B & C & D) Z. exists (JObj (present (ipc040_sorted c))). split; [|split; [reflexivity|]].
  - apply norm_leaf; [|nodup_keys|reflexivity]. unfold ipc040_fields.
    assert (forall o, wf_opt I o -> wf_opt exact o) by (intros [z|]; cbn; auto).
    alls ltac:(cbn [snd]; auto using keeps_ip, keeps_optint; try reflexivity).
  - assert (Z' : forall z, I z -> int64 z) by (intros; apply exact_int64; auto). clear Z.
    destruct c as [v i a g]. unfold dec_ipc040, ipc040_sorted, decode_struct. cbn [i4_version i4_interface i4_address i4_gateway] in *.
    destruct i as [i|]; projs; folds ints.
Qed.

Definition if100_fields (i : if100) : fields :=
  [("name", Some (JStr (if1_name i))); ("mac", ostr (if1_mac i)); ("mtu", oint (if1_mtu i)); ("sandbox", ostr (if1_sandbox i));
   ("socketPath", ostr (if1_socket i)); ("pciID", ostr (if1_pci i))].
Definition if100_sorted (i : if100) : fields :=
  [("mac", ostr (if1_mac i)); ("mtu", oint (if1_mtu i)); ("name", Some (JStr (if1_name i))); ("pciID", ostr (if1_pci i));
   ("sandbox", ostr (if1_sandbox i)); ("socketPath", ostr (if1_socket i))].
Lemma enc_if100_present i : enc_if100 i = Some (JObj (present (if100_fields i))).
Proof.
  unfold enc_if100. rewrite !fld_str_present, fld_int_present. change [("name", JStr (if1_name i))] with (present [("name", Some (JStr (if1_name i)))]).
  rewrite <- !present_app. reflexivity.
Qed.
Lemma if100_raw i : wf_if100 I i -> (forall z, I z -> int64 z) -> raw_ok dec_if100 2 (JObj (present (if100_fields i))) i.
Proof.
  intros (A & B & C & D & E & F) Z. split; [reflexivity|]. rewrite and_assoc_l. split.
  - apply fine_obj; [literal_keys|]. unfold if100_fields. alls ltac:(cbn [snd]; auto using fine_str, fine_jstr, fine_int).
  - destruct i as [a b c d e f]. unfold dec_if100, if100_fields, decode_struct. cbn [if1_name if1_mac if1_mtu if1_sandbox if1_socket if1_pci] in *. projs. folds ints.
Qed.
Lemma if100_nrm i : wf_if100 I i -> (forall z, I z -> exact z) -> nrm_ok dec_if100 (JObj (present (if100_fields i))) i.
Proof.
  intros (A & B & C & D & E & F) Z. exists (JObj (present (if100_sorted i))). split; [|split; [reflexivity|]].
  - apply norm_leaf; [|nodup_keys|reflexivity]. unfold if100_fields. alls ltac:(cbn [snd]; auto using keeps_str, keeps_int; try reflexivity).
  - assert (Z' : forall z, I z -> int64 z) by (intros; apply exact_int64; auto). clear Z.
    destruct i as [a b c d e f]. unfold dec_if100, if100_sorted, decode_struct. cbn [if1_name if1_mac if1_mtu if1_sandbox if1_socket if1_pci] in *. projs. folds ints.
Qed.

Definition ipc100_fields (c : ipc100) : fields :=
  [("interface", option_map enc_int (i1_interface c)); ("address", Some (enc_ipnet (i1_address c))); ("gateway", oip (i1_gateway c))].
Definition ipc100_sorted (c : ipc100) : fields :=
  [("address", Some (enc_ipnet (i1_address c))); ("gateway", oip (i1_gateway c)); ("interface", option_map enc_int (i1_interface c))].
Lemma enc_ipc100_present c : wf_ipc100 I prefix_form c -> enc_ipc100 c = Some (JObj (present (ipc100_fields c))).
Proof.
  intros (_ & _ & G). unfold enc_ipc100. rewrite (fld_ip_present _ _ G). cbn [obind]. rewrite fld_optint_present.
  change [("address", enc_ipnet (i1_address c))] with (present [("address", Some (enc_ipnet (i1_address c)))]).
  rewrite <- !present_app. reflexivity.
Qed.
Lemma ipc100_raw c : wf_ipc100 I prefix_form c -> (forall z, I z -> int64 z) -> raw_ok dec_ipc100 2 (JObj (present (ipc100_fields c))) c.
Proof.
  intros (A & B & C) Z. split; [reflexivity|]. rewrite and_assoc_l. split.
  - apply fine_obj; [literal_keys|]. unfold ipc100_fields. alls ltac:(cbn [snd]; auto using fine_jstr, fine_ip, fine_ipnet, fine_optint).
  - destruct c as [i a g]. unfold dec_ipc100, ipc100_fields, decode_struct. cbn [i1_interface i1_address i1_gateway] in *.
    destruct i as [i|]; projs; folds ints.
Qed.
Lemma ipc100_nrm c : wf_ipc100 I prefix_form c -> (forall z, I z -> exact z) -> nrm_ok dec_ipc100 (JObj (present (ipc100_fields c))) c.
Proof.
  intros (A & B & C) Z. exists (JObj (present (ipc100_sorted c))). split; [|split; [reflexivity|]].
  - apply norm_leaf; [|nodup_keys|reflexivity]. unfold ipc100_fields.
    assert (forall o, wf_opt I o -> wf_opt exact o) by (intros [z|]; cbn; auto).
    alls ltac:(cbn [snd]; auto using keeps_ip, keeps_optint; try reflexivity).
  - assert (Z' : forall z, I z -> int64 z) by (intros; apply exact_int64; auto). clear Z.
    destruct c as [i a g]. unfold dec_ipc100, ipc100_sorted, decode_struct. cbn [i1_interface i1_address i1_gateway] in *.
    destruct i as [i|]; projs; folds ints.
Qed.
End Ints.

(** ** Lists *)
Definition codec {A} (P : A -> Prop) (enc : A -> option json) (dec : json -> option A) (d : N) : Prop :=
  forall a, P a -> exists j, enc a = Some j /\ raw_ok dec d j a.
Definition codecn {A} (P : A -> Prop) (enc : A -> option json) (dec : json -> option A) : Prop :=
  forall a, P a -> exists j, enc a = Some j /\ nrm_ok dec j a.
Definition list_raw {A} (dec : json -> option A) (d : N) (js : list json) (l : list A) : Prop :=
  Forall jwf js /\ Forall (fun j => jdepth j <= d)%N js /\ dec_all dec js = Some l.
Definition list_nrm {A} (dec : json -> option A) (js : list json) (l : list A) : Prop :=
  exists js', norm_all js = Some js' /\ dec_all dec js' = Some l.
Lemma list_codec {A} (P : A -> Prop) enc dec d l : codec P enc dec d -> Forall P l ->
  exists js, omap_list enc l = Some js /\ list_raw dec d js l.
Proof.
  intros C. induction 1 as [|a l H _ (js & E & W & D & R)]; [exists []; repeat split; constructor|].
  destruct (C a H) as (j & Ej & _ & Wj & Dj & Rj). exists (j :: js). cbn [omap_list]. rewrite Ej. cbn [obind]. rewrite E. split; [reflexivity|].
  split; [now constructor|]. split; [now constructor|]. cbn [dec_all]. now rewrite Rj, R.
Qed.
Lemma list_codecn {A} (P : A -> Prop) enc dec l : codecn P enc dec -> Forall P l -> exists js, omap_list enc l = Some js /\ list_nrm dec js l.
Proof.
  intros C. induction 1 as [|a l H _ (js & E & js' & W & R)]; [exists []; split; [reflexivity|]; exists []; split; reflexivity|].
  destruct (C a H) as (j & Ej & j' & Nj & _ & Rj). exists (j :: js). cbn [omap_list]. rewrite Ej. cbn [obind]. rewrite E. split; [reflexivity|].
  exists (j' :: js'). cbn [norm_all dec_all]. now rewrite Nj, W, Rj, R.
Qed.
Lemma dec_ptr_obj {A} (dec : json -> option A) j : is_obj j = true -> dec_ptr dec j = option_map Some (dec j).
Proof. destruct j; try discriminate; reflexivity. Qed.
(** Pointers: a nil pointer is null. *)
Lemma opt_codec {A} (P : A -> Prop) enc dec d l : codec P enc dec d -> Forall (wf_opt P) l ->
  exists js, omap_list (enc_opt enc) l = Some js /\ list_raw (dec_ptr dec) d js l.
Proof.
  intros C. induction 1 as [|[a|] l H _ (js & E & W & D & R)]; [exists []; repeat split; constructor| |].
  - destruct (C a H) as (j & Ej & O & Wj & Dj & Rj). exists (j :: js). cbn [omap_list enc_opt]. rewrite Ej. cbn [obind]. rewrite E. split; [reflexivity|].
    split; [now constructor|]. split; [now constructor|]. cbn [dec_all]. now rewrite (dec_ptr_obj _ _ O), Rj, R.
  - exists (JNull :: js). cbn [omap_list enc_opt obind]. rewrite E. split; [reflexivity|].
    split; [constructor; [exact I|exact W]|]. split; [constructor; [apply N.le_0_l|exact D]|]. cbn [dec_all dec_ptr]. now rewrite R.
Qed.
Lemma opt_codecn {A} (P : A -> Prop) enc dec l : codecn P enc dec -> Forall (wf_opt P) l ->
  exists js, omap_list (enc_opt enc) l = Some js /\ list_nrm (dec_ptr dec) js l.
Proof.
  intros C. induction 1 as [|[a|] l H _ (js & E & js' & W & R)]; [exists []; split; [reflexivity|]; exists []; split; reflexivity| |].
  - destruct (C a H) as (j & Ej & j' & Nj & O & Rj). exists (j :: js). cbn [omap_list enc_opt]. rewrite Ej. cbn [obind]. rewrite E. split; [reflexivity|].
    exists (j' :: js'). cbn [norm_all dec_all]. now rewrite Nj, W, (dec_ptr_obj _ _ O), Rj, R.
  - exists (JNull :: js). cbn [omap_list enc_opt obind]. rewrite E. split; [reflexivity|].
    exists (JNull :: js'). cbn [norm_all norm dec_all dec_ptr]. now rewrite W, R.
Qed.

(** ** Results *)
Lemma arr_jwf js : Forall jwf js -> wf_opt jwf (oarr js).
Proof. intros H. destruct js; [exact I|]. now apply jwf_arr. Qed.
Lemma arr_depth d js : Forall (fun j => jdepth j <= d)%N js -> wf_opt (fun v => jdepth v <= N.succ d)%N (oarr js).
Proof. intros H. destruct js; [exact I|]. now apply jdepth_arr. Qed.
Lemma arr_nrm k js js' : norm_all js = Some js' -> nrm_field (k, oarr js) (k, oarr js').
Proof.
  intros H. split; [reflexivity|]. cbn [snd]. destruct js as [|j js].
  - injection H as <-. exact I.
  - pose proof H as H'. cbn [norm_all] in H'. destruct (norm j); [|discriminate]. destruct (norm_all js); [|discriminate]. injection H' as <-.
    cbn [oarr]. now rewrite norm_arr, H.
Qed.
Lemma keep_nrm k o : keeps o -> nrm_field (k, o) (k, o).
Proof. intros H. split; [reflexivity|]. destruct o; [exact H|exact I]. Qed.
Lemma depth_le (v : json) a b : (jdepth v <= a)%N -> (a <= b)%N -> (jdepth v <= b)%N.
Proof. apply N.le_trans. Qed.
Lemma wf_opt_impl {A} (P Q : A -> Prop) o : (forall a, P a -> Q a) -> wf_opt P o -> wf_opt Q o.
Proof. destruct o; cbn; auto. Qed.
Lemma fine_jwf o : fine o -> wf_opt jwf o.
Proof. apply wf_opt_impl. now intros v []. Qed.
Lemma fine_depth d o : fine o -> (1 <= d)%N -> wf_opt (fun v => jdepth v <= d)%N o.
Proof. intros H L. revert H. apply wf_opt_impl. intros v []. eapply N.le_trans; eassumption. Qed.
Ltac fold_arr1 R :=
  eapply eq_trans; [eapply fold_arr; [keyed; cbn [dec_list]; rewrite R; projs; reflexivity|let Q := fresh in intros Q; rewrite Q in R; injection R as R; rewrite <- R; reflexivity]|].
Ltac fold_dns R := eapply eq_trans; [eapply fold_req; keyed; projs; fold dns_zero; rewrite R; projs; reflexivity|].

Lemma Forall_filter_incl {A} (P : A -> Prop) f l : Forall P l -> Forall P (filter f l).
Proof. intros H. rewrite Forall_forall in *. intros x X. apply filter_In in X. now apply H. Qed.

(** A result after a trip through interface{}: the version comes first. *)
Definition nrm_res {A} (dec : json -> option A) (v : string) (j : json) (a : A) : Prop :=
  exists m, norm j = Some (JObj m) /\ dec (JObj m) = Some a /\ (v <> "" -> exists t, m = ("cniVersion", JStr v) :: t).
Lemma first_version v fs : v <> "" -> exists t, present (("cniVersion", ostr v) :: fs) = ("cniVersion", JStr v) :: t.
Proof. intros H. unfold ostr. destruct (String.eqb_spec v ""); [easy|]. eexists. reflexivity. Qed.

Section Ints2.
Context (I : Z -> Prop).
Ltac ints := cbn [wf_opt] in *; auto.
Lemma route_codec : (forall z, I z -> int64 z) -> codec (wf_route I prefix_form) enc_route dec_route 2.
Proof. intros Z r W. eexists. split; [eapply enc_route_present, W|eapply route_raw; eassumption]. Qed.
Lemma route_codecn : (forall z, I z -> exact z) -> codecn (wf_route I prefix_form) enc_route dec_route.
Proof. intros Z r W. eexists. split; [eapply enc_route_present, W|eapply route_nrm; eassumption]. Qed.
Lemma if040_codec : codec wf_if040 enc_if040 dec_if040 2.
Proof. intros r W. eexists. split; [apply enc_if040_present|now apply if040_raw]. Qed.
Lemma if040_codecn : codecn wf_if040 enc_if040 dec_if040.
Proof. intros r W. eexists. split; [apply enc_if040_present|now apply if040_nrm]. Qed.
Lemma ipc040_codec : (forall z, I z -> int64 z) -> codec (wf_ipc040 I prefix_form) enc_ipc040 dec_ipc040 2.
Proof. intros Z r W. eexists. split; [eapply enc_ipc040_present, W|eapply ipc040_raw; eassumption]. Qed.
Lemma ipc040_codecn : (forall z, I z -> exact z) -> codecn (wf_ipc040 I prefix_form) enc_ipc040 dec_ipc040.
Proof. intros Z r W. eexists. split; [eapply enc_ipc040_present, W|eapply ipc040_nrm; eassumption]. Qed.
Lemma if100_codec : (forall z, I z -> int64 z) -> codec (wf_if100 I) enc_if100 dec_if100 2.
Proof. intros Z r W. eexists. split; [eapply enc_if100_present|eapply if100_raw; eassumption]. Qed.
Lemma if100_codecn : (forall z, I z -> exact z) -> codecn (wf_if100 I) enc_if100 dec_if100.
Proof. intros Z r W. eexists. split; [eapply enc_if100_present|eapply if100_nrm; eassumption]. Qed.
Lemma ipc100_codec : (forall z, I z -> int64 z) -> codec (wf_ipc100 I prefix_form) enc_ipc100 dec_ipc100 2.
Proof. intros Z r W. eexists. split; [eapply enc_ipc100_present, W|eapply ipc100_raw; eassumption]. Qed.
Lemma ipc100_codecn : (forall z, I z -> exact z) -> codecn (wf_ipc100 I prefix_form) enc_ipc100 dec_ipc100.
Proof. intros Z r W. eexists. split; [eapply enc_ipc100_present, W|eapply ipc100_nrm; eassumption]. Qed.

Definition ipc020_fields (c : ipc020) (js : list json) : fields :=
  [("ip", Some (enc_ipnet (i2_ip c))); ("gateway", oip (i2_gateway c)); ("routes", oarr js)].
Definition ipc020_sorted (c : ipc020) (js : list json) : fields :=
  [("gateway", oip (i2_gateway c)); ("ip", Some (enc_ipnet (i2_ip c))); ("routes", oarr js)].
Lemma enc_ipc020_present c js : wf_ipc020 I prefix_form c -> omap_list enc_route (i2_routes c) = Some js ->
  enc_ipc020 c = Some (JObj (present (ipc020_fields c js))).
Proof.
  intros (_ & G & _) E. unfold enc_ipc020. rewrite (fld_ip_present _ _ G), E. cbn [obind].
  change [("ip", enc_ipnet (i2_ip c))] with (present [("ip", Some (enc_ipnet (i2_ip c)))]).
  rewrite fld_arr_present, <- !present_app. reflexivity.
Qed.
Lemma ipc020_codec : (forall z, I z -> int64 z) -> codec (wf_ipc020 I prefix_form) enc_ipc020 dec_ipc020 4.
Proof.
  intros Z c W. pose proof W as (A & B & C). destruct (list_codec _ _ _ _ _ (route_codec Z) C) as (js & E & Wj & Dj & R).
  eexists. split; [eapply enc_ipc020_present; eassumption|]. split; [reflexivity|]. split; [|split].
  - apply jwf_present. unfold ipc020_fields.
    repeat apply Forall_cons; try apply Forall_nil; (split; [apply ascii_wft; reflexivity|cbn [snd]]); auto using fine_jwf, fine_ip, fine_ipnet, arr_jwf.
  - change 4%N with (N.succ 3). apply jdepth_present. unfold ipc020_fields.
    repeat apply Forall_cons; try apply Forall_nil; cbn [snd]; [apply fine_depth; [now apply fine_ipnet|easy]|apply fine_depth; [now apply fine_ip|easy]|].
    now apply (arr_depth 2).
  - destruct c as [p g rs]. unfold dec_ipc020, ipc020_fields, decode_struct. cbn [i2_ip i2_gateway i2_routes] in *. projs.
    fold1 ints. fold1 ints. fold_arr1 R. apply fold_end. reflexivity.
Qed.
Lemma ipc020_codecn : (forall z, I z -> exact z) -> codecn (wf_ipc020 I prefix_form) enc_ipc020 dec_ipc020.
Proof.
  intros Z c W. pose proof W as (A & B & C). destruct (list_codecn _ _ _ _ (route_codecn Z) C) as (js & E & js' & Nj & R).
  eexists. split; [eapply enc_ipc020_present; eassumption|]. exists (JObj (present (ipc020_sorted c js'))). split; [|split; [reflexivity|]].
  - change (ipc020_sorted c js') with (sset_all (ipc020_fields c js') []). apply norm_present; [|nodup_keys]. unfold ipc020_fields.
    repeat apply Forall2_cons; try apply Forall2_nil; auto using keep_nrm, arr_nrm, keeps_ip. now apply keep_nrm.
  - destruct c as [p g rs]. unfold dec_ipc020, ipc020_sorted, decode_struct. cbn [i2_ip i2_gateway i2_routes] in *. projs.
    fold1 ints. fold1 ints. fold_arr1 R. apply fold_end. reflexivity.
Qed.

(** 0.1.0 and 0.2.0 *)
Definition res020_fields (r : res020) (o4 o6 : option json) (dj : json) : fields :=
  [("cniVersion", ostr (v2_version r)); ("ip4", o4); ("ip6", o6); ("dns", Some dj)].
Definition res020_sorted (r : res020) (o4 o6 : option json) (dj : json) : fields :=
  [("cniVersion", ostr (v2_version r)); ("dns", Some dj); ("ip4", o4); ("ip6", o6)].
Definition opt_raw {A} (dec : json -> option A) (d : N) (o : option json) (a : option A) : Prop :=
  match o, a with Some j, Some a => raw_ok dec d j a | None, None => True | _, _ => False end.
Definition opt_nrm {A} (dec : json -> option A) (o o' : option json) (a : option A) : Prop :=
  match o, o', a with
  | Some j, Some j', Some a => norm j = Some j' /\ is_obj j' = true /\ dec j' = Some a
  | None, None, None => True | _, _, _ => False end.
Lemma fld_ipc020_raw (Z : forall z, I z -> int64 z) c k : wf_opt (wf_ipc020 I prefix_form) c ->
  exists o, fld_ipc020 k c = Some (present [(k, o)]) /\ opt_raw dec_ipc020 4 o c.
Proof.
  destruct c as [c|]; [|intros _; exists None; split; [reflexivity|exact Logic.I]].
  intros W. destruct (ipc020_codec Z c W) as (j & E & R). exists (Some j). cbn [fld_ipc020 wf_opt]. rewrite E. split; [reflexivity|exact R].
Qed.
Lemma fld_ipc020_nrm (Z : forall z, I z -> exact z) c k : wf_opt (wf_ipc020 I prefix_form) c ->
  exists o o', fld_ipc020 k c = Some (present [(k, o)]) /\ opt_nrm dec_ipc020 o o' c.
Proof.
  destruct c as [c|]; [|intros _; exists None, None; split; [reflexivity|exact Logic.I]].
  intros W. destruct (ipc020_codecn Z c W) as (j & E & j' & N & R). exists (Some j), (Some j'). cbn [fld_ipc020 wf_opt]. rewrite E. split; [reflexivity|].
  exact (conj N R).
Qed.
Lemma enc_res020_present r o4 o6 : fld_ipc020 "ip4" (v2_ip4 r) = Some (present [("ip4", o4)]) ->
  fld_ipc020 "ip6" (v2_ip6 r) = Some (present [("ip6", o6)]) ->
  enc_res020 r = Some (JObj (present (res020_fields r o4 o6 (enc_dns (v2_dns r))))).
Proof.
  intros E4 E6. unfold enc_res020. rewrite E4, E6. cbn [obind]. rewrite fld_str_present.
  change [("dns", enc_dns (v2_dns r))] with (present [("dns", Some (enc_dns (v2_dns r)))]). rewrite <- !present_app. reflexivity.
Qed.
Lemma raw_jwf {A} (dec : json -> option A) d o a : opt_raw dec d o a -> wf_opt jwf o /\ wf_opt (fun v => jdepth v <= d)%N o.
Proof. destruct o, a; try easy. now intros (_ & H & D & _). Qed.
Definition wf_ver (I : Z -> Prop) (r : result) : Prop := wf_body I prefix_form r /\ well_formed_text (result_version r).
Lemma res020_codec : (forall z, I z -> int64 z) -> codec (fun r => wf_ver I (R020 r)) enc_res020 dec_res020 5.
Proof.
  intros Z r [(W4 & W6 & WD) V]. destruct (fld_ipc020_raw Z _ "ip4" W4) as (o4 & E4 & Q4). destruct (fld_ipc020_raw Z _ "ip6" W6) as (o6 & E6 & Q6).
  destruct (dns_raw _ WD) as (_ & J & D & R). destruct (raw_jwf _ _ _ _ Q4) as [J4 D4]. destruct (raw_jwf _ _ _ _ Q6) as [J6 D6].
  eexists. split; [eapply enc_res020_present; eassumption|]. split; [reflexivity|]. cbn [result_version] in V. split; [|split].
  - apply jwf_present. unfold res020_fields.
    repeat apply Forall_cons; try apply Forall_nil; (split; [apply ascii_wft; reflexivity|cbn [snd]]); auto using fine_jwf, fine_str.
  - change 5%N with (N.succ 4). apply jdepth_present. unfold res020_fields.
    repeat apply Forall_cons; try apply Forall_nil; cbn [snd]; [apply fine_depth; [now apply fine_str|easy]|exact D4|exact D6|].
    eapply depth_le; [exact D|easy].
  - destruct r as [v c4 c6 d]. unfold dec_res020, res020_fields, decode_struct. cbn [v2_version v2_ip4 v2_ip6 v2_dns] in *. projs. clear E4 E6.
    destruct o4 as [j4|], c4 as [c4|]; try easy; destruct o6 as [j6|], c6 as [c6|]; try easy; fold1 ints;
    try (destruct Q4 as (O4 & _ & _ & R4)); try (destruct Q6 as (O6 & _ & _ & R6)).
    + eapply eq_trans; [eapply fold_req; keyed; rewrite (dec_ptr_obj _ _ O4), R4; projs; reflexivity|].
      eapply eq_trans; [eapply fold_req; keyed; rewrite (dec_ptr_obj _ _ O6), R6; projs; reflexivity|]. fold_dns R. now apply fold_end.
    + eapply eq_trans; [eapply fold_req; keyed; rewrite (dec_ptr_obj _ _ O4), R4; projs; reflexivity|]. fold1 ints. fold_dns R. now apply fold_end.
    + fold1 ints. eapply eq_trans; [eapply fold_req; keyed; rewrite (dec_ptr_obj _ _ O6), R6; projs; reflexivity|]. fold_dns R. now apply fold_end.
    + fold1 ints. fold1 ints. fold_dns R. now apply fold_end.
Qed.
Lemma res020_codecn : (forall z, I z -> exact z) -> forall r, wf_res020 I prefix_form r ->
  exists j, enc_res020 r = Some j /\ nrm_res dec_res020 (v2_version r) j r.
Proof.
  intros Z r (W4 & W6 & WD). destruct (fld_ipc020_nrm Z _ "ip4" W4) as (o4 & p4 & E4 & Q4). destruct (fld_ipc020_nrm Z _ "ip6" W6) as (o6 & p6 & E6 & Q6).
  destruct (dns_nrm (v2_dns r)) as (dj & ND & _ & R).
  eexists. split; [eapply enc_res020_present; eassumption|]. exists (present (res020_sorted r p4 p6 dj)). split; [|split; [|apply first_version]].
  - change (res020_sorted r p4 p6 dj) with (sset_all (res020_fields r p4 p6 dj) []). apply norm_present; [|nodup_keys]. unfold res020_fields.
    repeat apply Forall2_cons; try apply Forall2_nil; [apply keep_nrm, keeps_str| | |split; [reflexivity|exact ND]];
      (split; [reflexivity|]); cbn [snd].
    + destruct o4, p4, (v2_ip4 r); try easy. apply Q4.
    + destruct o6, p6, (v2_ip6 r); try easy. apply Q6.
  - clear E4 E6 ND. destruct r as [v c4 c6 d]. unfold dec_res020, res020_sorted, decode_struct. cbn [v2_version v2_ip4 v2_ip6 v2_dns] in *. projs.
    destruct o4, p4 as [j4|], c4 as [c4|]; try easy; destruct o6, p6 as [j6|], c6 as [c6|]; try easy; fold1 ints; fold_dns R;
    try (destruct Q4 as (_ & O4 & R4)); try (destruct Q6 as (_ & O6 & R6)).
    + eapply eq_trans; [eapply fold_req; keyed; rewrite (dec_ptr_obj _ _ O4), R4; projs; reflexivity|].
      eapply eq_trans; [eapply fold_req; keyed; rewrite (dec_ptr_obj _ _ O6), R6; projs; reflexivity|]. now apply fold_end.
    + eapply eq_trans; [eapply fold_req; keyed; rewrite (dec_ptr_obj _ _ O4), R4; projs; reflexivity|]. fold1 ints. now apply fold_end.
    + fold1 ints. eapply eq_trans; [eapply fold_req; keyed; rewrite (dec_ptr_obj _ _ O6), R6; projs; reflexivity|]. now apply fold_end.
    + fold1 ints. fold1 ints. now apply fold_end.
Qed.

(** 0.3.0 to 0.4.0 *)
Definition res_fields (v : string) (ifs ips rs : list json) (dj : json) : fields :=
  [("cniVersion", ostr v); ("interfaces", oarr ifs); ("ips", oarr ips); ("routes", oarr rs); ("dns", Some dj)].
Definition res_sorted (v : string) (ifs ips rs : list json) (dj : option json) : fields :=
  [("cniVersion", ostr v); ("dns", dj); ("interfaces", oarr ifs); ("ips", oarr ips); ("routes", oarr rs)].
Lemma res_fine v ifs ips rs d : well_formed_text v -> Forall jwf ifs -> Forall jwf ips -> Forall jwf rs ->
  Forall (fun j => jdepth j <= 2)%N ifs -> Forall (fun j => jdepth j <= 2)%N ips -> Forall (fun j => jdepth j <= 2)%N rs -> wf_dns d ->
  jwf (JObj (present (res_fields v ifs ips rs (enc_dns d)))) /\ (jdepth (JObj (present (res_fields v ifs ips rs (enc_dns d)))) <= 5)%N.
Proof.
  intros V A B C A' B' C' WD. destruct (dns_raw _ WD) as (_ & J & D & _). split.
  - apply jwf_present. unfold res_fields.
    repeat apply Forall_cons; try apply Forall_nil; (split; [apply ascii_wft; reflexivity|cbn [snd]]); auto using fine_jwf, fine_str, arr_jwf.
  - apply N.le_trans with (N.succ 3); [|easy]. apply jdepth_present. unfold res_fields.
    repeat apply Forall_cons; try apply Forall_nil; cbn [snd]; try (now apply (arr_depth 2)); [apply fine_depth; [now apply fine_str|easy]|].
    eapply depth_le; [exact D|easy].
Qed.
Lemma res_norm v ifs ips rs dj ifs' ips' rs' dj' : norm_all ifs = Some ifs' -> norm_all ips = Some ips' -> norm_all rs = Some rs' -> norm dj = Some dj' ->
  norm (JObj (present (res_fields v ifs ips rs dj))) = Some (JObj (present (res_sorted v ifs' ips' rs' (Some dj')))).
Proof.
  intros A B C D. change (res_sorted v ifs' ips' rs' (Some dj')) with (sset_all (res_fields v ifs' ips' rs' dj') []).
  apply norm_present; [|nodup_keys]. unfold res_fields.
  repeat apply Forall2_cons; try apply Forall2_nil; auto using arr_nrm; [apply keep_nrm, keeps_str|split; [reflexivity|exact D]].
Qed.
Lemma enc_res040_present r ifs ips rs : omap_list (enc_opt enc_if040) (v4_interfaces r) = Some ifs ->
  omap_list (enc_opt enc_ipc040) (v4_ips r) = Some ips -> omap_list (enc_opt enc_route) (v4_routes r) = Some rs ->
  enc_res040 r = Some (JObj (present (res_fields (v4_version r) ifs ips rs (enc_dns (v4_dns r))))).
Proof.
  intros A B C. unfold enc_res040. rewrite A, B, C. cbn [obind]. rewrite fld_str_present, !fld_arr_present.
  change [("dns", enc_dns (v4_dns r))] with (present [("dns", Some (enc_dns (v4_dns r)))]). rewrite <- !present_app. reflexivity.
Qed.
Lemma res040_codec : (forall z, I z -> int64 z) -> codec (fun r => wf_ver I (R040 r)) enc_res040 dec_res040 5.
Proof.
  intros Z r [(A & B & C & WD) V]. cbn [result_version] in V.
  destruct (opt_codec _ _ _ _ _ if040_codec A) as (ifs & E1 & J1 & D1 & R1).
  destruct (opt_codec _ _ _ _ _ (ipc040_codec Z) B) as (ips & E2 & J2 & D2 & R2).
  destruct (opt_codec _ _ _ _ _ (route_codec Z) C) as (rs & E3 & J3 & D3 & R3).
  eexists. split; [eapply enc_res040_present; eassumption|]. split; [reflexivity|]. rewrite and_assoc_l. split; [now apply res_fine|].
  destruct (dns_raw _ WD) as (_ & _ & _ & R). clear E1 E2 E3.
  destruct r as [v i p q d]. unfold dec_res040, res_fields, decode_struct. cbn [v4_version v4_interfaces v4_ips v4_routes v4_dns] in *. projs.
  fold1 ints. fold_arr1 R1. fold_arr1 R2. fold_arr1 R3. fold_dns R. now apply fold_end.
Qed.
Lemma res040_codecn : (forall z, I z -> exact z) -> forall r, wf_res040 I prefix_form r ->
  exists j, enc_res040 r = Some j /\ nrm_res dec_res040 (v4_version r) j r.
Proof.
  intros Z r (A & B & C & WD).
  destruct (opt_codecn _ _ _ _ if040_codecn A) as (ifs & E1 & ifs' & N1 & R1).
  destruct (opt_codecn _ _ _ _ (ipc040_codecn Z) B) as (ips & E2 & ips' & N2 & R2).
  destruct (opt_codecn _ _ _ _ (route_codecn Z) C) as (rs & E3 & rs' & N3 & R3).
  destruct (dns_nrm (v4_dns r)) as (dj & ND & _ & R).
  eexists. split; [eapply enc_res040_present; eassumption|]. eexists. split; [apply res_norm; eassumption|]. split; [|apply first_version].
  clear E1 E2 E3 ND. destruct r as [v i p q d]. unfold dec_res040, res_sorted, decode_struct. cbn [v4_version v4_interfaces v4_ips v4_routes v4_dns] in *. projs.
  fold1 ints. fold_dns R. fold_arr1 R1. fold_arr1 R2. fold_arr1 R3. now apply fold_end.
Qed.

(** 1.0.0 and 1.1.0: Marshal itself goes through interface{} and drops an empty dns. *)
Lemma enc_res100_plain_present r ifs ips rs : omap_list (enc_opt enc_if100) (v1_interfaces r) = Some ifs ->
  omap_list (enc_opt enc_ipc100) (v1_ips r) = Some ips -> omap_list (enc_opt enc_route) (v1_routes r) = Some rs ->
  enc_res100_plain r = Some (JObj (present (res_fields (v1_version r) ifs ips rs (enc_dns (v1_dns r))))).
Proof.
  intros A B C. unfold enc_res100_plain. rewrite A, B, C. cbn [obind]. rewrite fld_str_present, !fld_arr_present.
  change [("dns", enc_dns (v1_dns r))] with (present [("dns", Some (enc_dns (v1_dns r)))]). rewrite <- !present_app. reflexivity.
Qed.
Lemma dns_empty d : dns_is_empty d = true -> d = dns_zero.
Proof.
  destruct d as [[|] dom [|] [|]]; unfold dns_is_empty; cbn; try (now rewrite ?andb_false_r); try discriminate.
  all: destruct (String.eqb_spec dom ""); cbn; try discriminate. now subst.
Qed.
Lemma res100_codec : (forall z, I z -> exact z) -> forall r, wf_ver I (R100 r) ->
  exists j, enc_res100 r = Some j /\ raw_ok dec_res100 5 j r /\ canonical j /\
    (v1_version r <> "" -> exists t, j = JObj (("cniVersion", JStr (v1_version r)) :: t)).
Proof.
  intros Z r [(A & B & C & WD) V]. cbn [result_version] in V.
  assert (Z' : forall z, I z -> int64 z) by (intros; apply exact_int64; auto).
  destruct (opt_codec _ _ _ _ _ (if100_codec Z') A) as (ifs & E1 & J1 & D1 & _).
  destruct (opt_codec _ _ _ _ _ (ipc100_codec Z') B) as (ips & E2 & J2 & D2 & _).
  destruct (opt_codec _ _ _ _ _ (route_codec Z') C) as (rs & E3 & J3 & D3 & _).
  destruct (opt_codecn _ _ _ _ (if100_codecn Z) A) as (x & E1' & ifs' & N1 & R1). rewrite E1 in E1'. injection E1' as <-.
  destruct (opt_codecn _ _ _ _ (ipc100_codecn Z) B) as (x & E2' & ips' & N2 & R2). rewrite E2 in E2'. injection E2' as <-.
  destruct (opt_codecn _ _ _ _ (route_codecn Z) C) as (x & E3' & rs' & N3 & R3). rewrite E3 in E3'. injection E3' as <-.
  destruct (dns_nrm (v1_dns r)) as (dj & ND & _ & R).
  destruct (res_fine _ _ _ _ _ V J1 J2 J3 D1 D2 D3 WD) as [J D].
  pose proof (res_norm (v1_version r) _ _ _ _ _ _ _ _ N1 N2 N3 ND) as NN.
  assert (EN : encodable (JObj (present (res_fields (v1_version r) ifs ips rs (enc_dns (v1_dns r)))))) by (split; [exact J|eapply N.le_trans; [exact D|easy]]).
  assert (U : unmarshal_map (print (JObj (present (res_fields (v1_version r) ifs ips rs (enc_dns (v1_dns r))))))
              = Some (Some (present (res_sorted (v1_version r) ifs' ips' rs' (Some dj))))).
  { apply unmarshal_map_some. eexists. split; [now apply parse_print|]. split; [reflexivity|exact NN]. }
  destruct (norm_encodable _ _ NN J) as [J' D'].
  assert (CN := norm_canonical _ _ NN).
  set (od := if dns_is_empty (v1_dns r) then None else Some dj).
  exists (JObj (present (res_sorted (v1_version r) ifs' ips' rs' od))).
  assert (SD : (if dns_is_empty (v1_dns r) then sdel "dns" (present (res_sorted (v1_version r) ifs' ips' rs' (Some dj)))
                else present (res_sorted (v1_version r) ifs' ips' rs' (Some dj))) = present (res_sorted (v1_version r) ifs' ips' rs' od)).
  { unfold od. destruct (dns_is_empty (v1_dns r)); [|reflexivity]. unfold res_sorted, oarr.
    unfold ostr. destruct (String.eqb (v1_version r) ""), ifs', ips', rs'; reflexivity. }
  split; [|split; [split; [reflexivity|split; [|split]]|split]].
  - unfold enc_res100. rewrite (enc_res100_plain_present _ _ _ _ E1 E2 E3). cbn [obind]. rewrite U. unfold obind. cbv zeta iota beta. do 2 f_equal. exact SD.
  - rewrite <- SD. destruct (dns_is_empty (v1_dns r)); [|exact J']. apply jwf_obj. apply jwf_obj in J'. unfold sdel. now apply Forall_filter_incl.
  - rewrite <- SD. destruct (dns_is_empty (v1_dns r)); [|eapply N.le_trans; eassumption].
    assert (D2' : (jdepth (JObj (present (res_sorted (v1_version r) ifs' ips' rs' (Some dj)))) <= N.succ 4)%N) by (eapply N.le_trans; eassumption).
    change 5%N with (N.succ 4). apply jdepth_obj. apply jdepth_obj in D2'. now apply Forall_filter_incl.
  - clear - R R1 R2 R3. destruct r as [v i p q d]. unfold dec_res100, res_sorted, decode_struct. cbn [v1_version v1_interfaces v1_ips v1_routes v1_dns] in *. subst od. projs.
    fold1 ints. destruct (dns_is_empty d) eqn:DE.
    + apply dns_empty in DE. subst d. fold1 ints. fold_arr1 R1. fold_arr1 R2. fold_arr1 R3. now apply fold_end.
    + fold_dns R. fold_arr1 R1. fold_arr1 R2. fold_arr1 R3. now apply fold_end.
  - rewrite <- SD. destruct (dns_is_empty (v1_dns r)); [|exact CN]. apply canonical_obj in CN as [S F]. apply canonical_obj.
    split; [now apply sdel_sorted|now apply Forall_filter_incl].
  - intros NV. destruct (first_version (v1_version r) (tl (res_sorted (v1_version r) ifs' ips' rs' od)) NV) as [t T].
    exists t. unfold res_sorted in *. cbn [tl] in T. now rewrite T.
Qed.
End Ints2.

(** ** Any result *)
(** json.Unmarshal into the Go type of [r]. *)
Definition dec_like (r : result) (j : json) : option result :=
  match r with
  | R020 _ => option_map R020 (dec_res020 j)
  | R040 _ => option_map R040 (dec_res040 j)
  | R100 _ => option_map R100 (dec_res100 j)
  end.
Definition ints_for (r : result) : Z -> Prop := match r with R100 _ => exact | _ => int64 end.
Lemma right_nonempty r : right_version r -> result_version r <> "" /\ well_formed_text (result_version r).
Proof.
  unfold right_version. intros H. assert (G : In (result_version r) ["0.1.0"; "0.2.0"; "0.3.0"; "0.3.1"; "0.4.0"; "1.0.0"; "1.1.0"]).
  { destruct r; cbn [versions_of result_version In] in *; intuition. }
  cbn [In] in G. destruct G as [G|[G|[G|[G|[G|[G|[G|[]]]]]]]]; rewrite <- G; (split; [discriminate|apply ascii_wft; reflexivity]).
Qed.
Lemma result_rt r : wf_result (ints_for r) prefix_form r ->
  exists j, enc_result r = Some j /\ is_obj j = true /\ jwf j /\ (jdepth j <= 5)%N /\ dec_like r j = Some r.
Proof.
  intros [W V]. apply right_nonempty in V as [_ V]. destruct r as [r|r|r]; cbn [ints_for] in W.
  - destruct (res020_codec int64 (fun z H => H) r (conj W V)) as (j & E & O & J & D & R). exists j. cbn [dec_like]. rewrite R. auto.
  - destruct (res040_codec int64 (fun z H => H) r (conj W V)) as (j & E & O & J & D & R). exists j. cbn [dec_like]. rewrite R. auto.
  - destruct (res100_codec exact (fun z H => H) r (conj W V)) as (j & E & (O & J & D & R) & _). exists j. cbn [dec_like]. rewrite R. auto.
Qed.
Lemma result_rtn r : wf_result exact prefix_form r ->
  exists j m, enc_result r = Some j /\ norm j = Some (JObj m) /\ dec_like r (JObj m) = Some r /\
    exists t, m = ("cniVersion", JStr (result_version r)) :: t.
Proof.
  intros [W V]. apply right_nonempty in V as [N V]. destruct r as [r|r|r].
  - destruct (res020_codecn exact (fun z H => H) r W) as (j & E & m & NM & R & T). exists j, m. cbn [dec_like]. rewrite R. auto.
  - destruct (res040_codecn exact (fun z H => H) r W) as (j & E & m & NM & R & T). exists j, m. cbn [dec_like]. rewrite R. auto.
  - destruct (res100_codec exact (fun z H => H) r (conj W V)) as (j & E & (O & J & D & R) & C & T). destruct (T N) as [t ->].
    exists (JObj (("cniVersion", JStr (v1_version r)) :: t)), (("cniVersion", JStr (v1_version r)) :: t).
    split; [exact E|]. split; [now apply canonical_norm|]. cbn [dec_like]. rewrite R. split; [reflexivity|]. now exists t.
Qed.
Lemma wf_route_mono x : wf_route exact prefix_form x -> wf_route int64 prefix_form x.
Proof.
  intros (Q1 & Q2 & Q3 & Q4 & Q5 & Q6 & Q7). split; [exact Q1|]. split; [exact Q2|].
  split; [now apply exact_int64|]. split; [now apply exact_int64|]. split; [now apply exact_int64|].
  split; [revert Q6|revert Q7]; apply wf_opt_impl; exact exact_int64.
Qed.
Lemma wf_exact_any r : wf_result exact prefix_form r -> wf_result (ints_for r) prefix_form r.
Proof.
  intros [W V]. split; [|exact V]. destruct r as [r|r|r]; [| |exact W]; cbn [ints_for wf_body] in *.
  - destruct W as (A & B & C). split; [|split; [|exact C]].
    + destruct (v2_ip4 r); [|exact I]. destruct A as (A1 & A2 & A3). split; [exact A1|]. split; [exact A2|]. revert A3. apply Forall_impl.
      exact wf_route_mono.
    + destruct (v2_ip6 r); [|exact I]. destruct B as (A1 & A2 & A3). split; [exact A1|]. split; [exact A2|]. revert A3. apply Forall_impl.
      exact wf_route_mono.
  - destruct W as (A & B & C & D). split; [exact A|]. split; [|split; [|exact D]].
    + revert B. apply Forall_impl. intros [c|]; [|easy]. intros (Q1 & Q2 & Q3). split; [exact Q1|]. split; [|exact Q3].
      revert Q2. apply wf_opt_impl. exact exact_int64.
    + revert C. apply Forall_impl. intros o. apply wf_opt_impl. exact wf_route_mono.
Qed.
Lemma create_like r v text j : In v (versions_of r) -> parse text = Some j -> dec_like r j = Some r -> right_version r -> create v text = Ok r.
Proof.
  intros IV P D V. pose proof (right_nonempty _ V) as [NE _]. unfold right_version in V. unfold create.
  destruct r as [r|r|r]; cbn [versions_of dec_like result_version] in *.
  - assert (F : find_creator creators v = Some (supported020, new_result020)) by (cbn [In] in IV; destruct IV as [<-|[<-|[]]]; reflexivity).
    rewrite F. cbn [snd]. unfold new_result020. rewrite P. cbn [obind]. destruct (dec_res020 j) as [r'|]; [|discriminate]. injection D as ->.
    assert (M : mem_str (v2_version r) supported020 = true) by (cbn [In] in V; destruct V as [E|[E|[]]]; rewrite <- E; reflexivity).
    rewrite M. destruct (String.eqb_spec (v2_version r) ""); [easy|reflexivity].
  - assert (F : find_creator creators v = Some (supported040, new_result040)) by (cbn [In] in IV; destruct IV as [<-|[<-|[<-|[]]]]; reflexivity).
    rewrite F. cbn [snd]. unfold new_result040. rewrite P. cbn [obind]. destruct (dec_res040 j) as [r'|]; [|discriminate]. injection D as ->.
    assert (M : mem_str (v4_version r) supported040 = true) by (cbn [In] in V; destruct V as [E|[E|[E|[]]]]; rewrite <- E; reflexivity).
    now rewrite M.
  - assert (F : find_creator creators v = Some (supported100, new_result100)) by (cbn [In] in IV; destruct IV as [<-|[<-|[]]]; reflexivity).
    rewrite F. cbn [snd]. unfold new_result100. rewrite P. cbn [obind]. destruct (dec_res100 j) as [r'|]; [|discriminate]. injection D as ->.
    assert (M : mem_str (v1_version r) supported100 = true) by (cbn [In] in V; destruct V as [E|[E|[]]]; rewrite <- E; reflexivity).
    now rewrite M.
Qed.
