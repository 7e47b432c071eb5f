(** What decoding a CNI result yields. *)
From Coq Require Import String Ascii List Arith NArith ZArith Bool Lia.
From Verif Require Import Model.GoStr Model.Errors Model.Json Model.Num Model.GoJson Model.NetIP Model.Types
  Spec.NameSpec Spec.JsonSpec Spec.TypesSpec Proofs.StrP Proofs.JsonP Proofs.JsonRT Proofs.NumP Proofs.NetIPP
  Proofs.GoJsonP Proofs.ConfP Proofs.TypesP.
Import ListNotations.
Open Scope nat_scope.
Open Scope string_scope.

Lemma decode_inv {A} (P : A -> Prop) step (zero : A) j a : P zero -> jwf j ->
  (forall a k v a', P a -> jwf v -> step a k v = Some a' -> P a') -> decode_struct step zero j = Some a -> P a.
Proof.
  intros Z J S D. destruct j; cbn [decode_struct] in D; try discriminate; [injection D as <-; exact Z|].
  apply jwf_obj in J. revert zero Z D. induction J as [|[k v] l [_ H] _ IH]; intros zero Z D.
  - injection D as <-. exact Z.
  - rewrite decode_members_cons in D. destruct (step zero k v) as [b|] eqn:E; [|discriminate]. eapply IH; [|exact D]. eapply S; eassumption.
Qed.
Lemma omap_some {A B} (f : A -> B) o b : option_map f o = Some b -> exists a, o = Some a /\ b = f a.
Proof. destruct o; [|discriminate]. intros H. injection H as <-. eauto. Qed.
Ltac step_cases H :=
  repeat match type of H with
  | (if ?b then _ else _) = Some _ => destruct b
  end;
  [> (apply omap_some in H as (? & ?E & ->)) .. | injection H as <-].

Lemma dec_string_wf c j s : dec_string c j = Some s -> well_formed_text c -> jwf j -> well_formed_text s.
Proof. destruct j; try discriminate; cbn; intros H; injection H as <-; auto. Qed.
Lemma atoi_int64 l z : atoi l = Some z -> int64 z.
Proof.
  intros H. assert (G : in_int64 z = true). { unfold atoi in H. repeat match type of H with context [match ?x with _ => _ end] => destruct x eqn:?; try discriminate end; injection H as <-; assumption. }
  unfold in_int64, min_int64, max_int64 in G. apply andb_true_iff in G as [A B]. apply Z.leb_le in A, B. unfold int64. lia.
Qed.
Lemma dec_int_wf c j z : dec_int c j = Some z -> int64 c -> int64 z.
Proof. destruct j; try discriminate; cbn; intros H; [injection H as <-; auto|intros _; eapply atoi_int64, H]. Qed.
Lemma dec_ptr_wf {A} (P : A -> Prop) (dec : json -> option A) j o : dec_ptr dec j = Some o -> (forall a, dec j = Some a -> P a) -> wf_opt P o.
Proof.
  destruct j; cbn [dec_ptr]; intros H G; [injection H as <-; exact I|..]; apply omap_some in H as (a & E & ->); cbn; auto.
Qed.
Lemma dec_ip_wf j a : dec_ip j = Some a -> wf_gw a.
Proof.
  destruct j; try discriminate; cbn [dec_ip]; intros H; [injection H as <-; now left|].
  destruct (String.eqb s ""); [injection H as <-; now left|]. right. eapply parse_ip_bytes, H.
Qed.
Lemma dec_ipnet_wf j p : dec_ipnet j = Some p -> any_prefix p.
Proof. destruct j; try discriminate; cbn [dec_ipnet]; intros H; apply parse_cidr_form in H as [H|H]; unfold any_prefix; auto. Qed.
Lemma dec_list_wf {A} (P : A -> Prop) (dec : json -> option A) j l : dec_list dec j = Some l -> jwf j -> (forall x a, jwf x -> dec x = Some a -> P a) -> Forall P l.
Proof.
  destruct j as [| | | |js|]; try discriminate; cbn [dec_list]; intros H J G; [injection H as <-; constructor|].
  apply jwf_arr in J. revert l H. induction J as [|x js Jx _ IH]; intros l H; cbn [dec_all] in H; [injection H as <-; constructor|].
  destruct (dec x) eqn:E; [|discriminate]. destruct (dec_all dec js); [|discriminate]. injection H as <-. constructor; eauto.
Qed.
Lemma dec_strs_wf j l : dec_strs j = Some l -> jwf j -> Forall well_formed_text l.
Proof. intros H J. eapply dec_list_wf; [exact H|exact J|]. intros x a Jx E. eapply dec_string_wf; [exact E|constructor|exact Jx]. Qed.
Lemma wft_nil : well_formed_text "". Proof. constructor. Qed.
Lemma int64_0 : int64 0. Proof. unfold int64. lia. Qed.

Lemma dec_dns_wf c j d : dec_dns c j = Some d -> wf_dns c -> jwf j -> wf_dns d.
Proof.
  intros H C J. revert H. apply decode_inv; [exact C|exact J|]. clear. intros a k v a' (A & B & C & D) J H. step_cases H;
    unfold wf_dns; projs; eauto using dec_strs_wf, dec_string_wf.
Qed.

Lemma any_zero : any_prefix ipnet_zero. Proof. right. now left. Qed.
Lemma gw_nil : wf_gw []. Proof. now left. Qed.
Lemma optint_wf j o : dec_ptr (dec_int 0%Z) j = Some o -> wf_opt int64 o.
Proof. intros H. eapply dec_ptr_wf; [exact H|]. intros a E. eapply dec_int_wf; [exact E|exact int64_0]. Qed.
Ltac conj := repeat match goal with |- _ /\ _ => split end.
#[local] Hint Resolve any_zero gw_nil optint_wf wft_nil int64_0 dec_strs_wf dec_string_wf dec_int_wf dec_ip_wf dec_ipnet_wf dec_dns_wf : dec.
#[local] Opaque int64 any_prefix.
Lemma dec_route_wf j r : dec_route j = Some r -> jwf j -> wf_route int64 any_prefix r.
Proof.
  intros H J. revert H. apply decode_inv; [|exact J|].
  - unfold wf_route, route_zero. projs. cbn [wf_opt]. conj; auto with dec.
  - clear. intros a k v a' (A & B & C & D & E & F & G) J H. step_cases H; unfold wf_route; projs; conj; eauto with dec.
Qed.
Lemma dec_ipc020_wf j r : dec_ipc020 j = Some r -> jwf j -> wf_ipc020 int64 any_prefix r.
Proof.
  intros H J. revert H. apply decode_inv; [|exact J|].
  - unfold wf_ipc020. projs. conj; auto with dec.
  - clear. intros a k v a' (A & B & C) J H. step_cases H; unfold wf_ipc020; projs; conj; eauto with dec.
    eapply dec_list_wf; [eassumption|exact J|]. intros jx y Jx Ex. eapply dec_route_wf; eassumption.
Qed.
Lemma dec_if040_wf j r : dec_if040 j = Some r -> jwf j -> wf_if040 r.
Proof.
  intros H J. revert H. apply decode_inv; [|exact J|].
  - unfold wf_if040. projs. conj; auto with dec.
  - clear. intros a k v a' (A & B & C) J H. step_cases H; unfold wf_if040; projs; conj; eauto with dec.
Qed.
Lemma dec_ipc040_wf j r : dec_ipc040 j = Some r -> jwf j -> wf_ipc040 int64 any_prefix r.
Proof.
  intros H J. revert H. apply decode_inv; [|exact J|].
  - unfold wf_ipc040. projs. cbn [wf_opt]. conj; auto with dec.
  - clear. intros a k v a' (A & B & C & D) J H. step_cases H; unfold wf_ipc040; projs; conj; eauto with dec.
Qed.
Lemma dec_if100_wf j r : dec_if100 j = Some r -> jwf j -> wf_if100 int64 r.
Proof.
  intros H J. revert H. apply decode_inv; [|exact J|].
  - unfold wf_if100. projs. conj; auto with dec.
  - clear. intros a k v a' (A & B & C & D & E & F) J H. step_cases H; unfold wf_if100; projs; conj; eauto with dec.
Qed.
Lemma dec_ipc100_wf j r : dec_ipc100 j = Some r -> jwf j -> wf_ipc100 int64 any_prefix r.
Proof.
  intros H J. revert H. apply decode_inv; [|exact J|].
  - unfold wf_ipc100. projs. cbn [wf_opt]. conj; auto with dec.
  - clear. intros a k v a' (A & B & C) J H. step_cases H; unfold wf_ipc100; projs; conj; eauto with dec.
Qed.
Lemma wf_dns_zero : wf_dns dns_zero.
Proof. unfold wf_dns, dns_zero. projs. conj; auto with dec. Qed.
#[local] Hint Resolve wf_dns_zero : dec.
Lemma ptrs_wf {A} (P : A -> Prop) dec j l : dec_list (dec_ptr dec) j = Some l -> jwf j -> (forall x a, jwf x -> dec x = Some a -> P a) -> Forall (wf_opt P) l.
Proof. intros H J G. eapply dec_list_wf; [exact H|exact J|]. intros x a Jx E. eapply dec_ptr_wf; [exact E|]. eauto. Qed.
Lemma dec_res020_wf j r : dec_res020 j = Some r -> jwf j -> wf_res020 int64 any_prefix r.
Proof.
  intros H J. revert H. apply decode_inv; [|exact J|].
  - unfold wf_res020. projs. cbn [wf_opt]. conj; auto with dec.
  - clear. intros a k v a' (A & B & C) J H. step_cases H; unfold wf_res020; projs; conj; eauto with dec.
    + eapply dec_ptr_wf; [eassumption|]. intros y Ey. eapply dec_ipc020_wf; eassumption.
    + eapply dec_ptr_wf; [eassumption|]. intros y Ey. eapply dec_ipc020_wf; eassumption.
Qed.
Lemma dec_res040_wf j r : dec_res040 j = Some r -> jwf j -> wf_res040 int64 any_prefix r.
Proof.
  intros H J. revert H. apply decode_inv; [|exact J|].
  - unfold wf_res040. projs. conj; auto with dec.
  - clear. intros a k v a' (A & B & C & D) J H. step_cases H; unfold wf_res040; projs; conj; eauto with dec;
      (eapply ptrs_wf; [eassumption|exact J|]); intros jx y Jx Ey; eauto using dec_if040_wf, dec_ipc040_wf, dec_route_wf.
Qed.
Lemma dec_res100_wf j r : dec_res100 j = Some r -> jwf j -> wf_res100 int64 any_prefix r.
Proof.
  intros H J. revert H. apply decode_inv; [|exact J|].
  - unfold wf_res100. projs. conj; auto with dec.
  - clear. intros a k v a' (A & B & C & D) J H. step_cases H; unfold wf_res100; projs; conj; eauto with dec;
      (eapply ptrs_wf; [eassumption|exact J|]); intros jx y Jx Ey; eauto using dec_if100_wf, dec_ipc100_wf, dec_route_wf.
Qed.

(** ** Version *)
Definition version_step (v k : string) (x : json) : option string := if key_is "cniVersion" k then dec_string v x else Some v.
Lemma version_walk {A} (step : A -> string -> json -> option A) (ver : A -> string) :
  (forall a k v a', step a k v = Some a' -> version_step (ver a) k v = Some (ver a')) ->
  forall j zero a, decode_struct step zero j = Some a -> decode_struct version_step (ver zero) j = Some (ver a).
Proof.
  intros S j zero a D. destruct j as [| | | | |l]; cbn [decode_struct] in *; try discriminate; [injection D as <-; reflexivity|].
  revert zero D. induction l as [|[k v] l IH]; intros zero D; [injection D as <-; reflexivity|].
  rewrite decode_members_cons in D. rewrite decode_members_cons. destruct (step zero k v) as [b|] eqn:E; [|discriminate]. rewrite (S _ _ _ _ E). now apply IH.
Qed.
Ltac version_case k H :=
  unfold version_step; destruct (key_is "cniVersion" k);
  [apply omap_some in H as (? & ?E & ->); projs; assumption
  |repeat match type of H with (if ?b then _ else _) = Some _ => destruct b end;
   first [injection H as <-; reflexivity|apply omap_some in H as (? & ?E & ->); reflexivity]].
Lemma dec_res020_version j r : dec_res020 j = Some r -> dec_cni_version j = Some (v2_version r).
Proof. intros D. apply (version_walk _ v2_version) in D; [exact D|]. intros a k v a' H. version_case k H. Qed.
Lemma dec_res040_version j r : dec_res040 j = Some r -> dec_cni_version j = Some (v4_version r).
Proof. intros D. apply (version_walk _ v4_version) in D; [exact D|]. intros a k v a' H. version_case k H. Qed.
Lemma dec_res100_version j r : dec_res100 j = Some r -> dec_cni_version j = Some (v1_version r).
Proof. intros D. apply (version_walk _ v1_version) in D; [exact D|]. intros a k v a' H. version_case k H. Qed.

(** ** Create *)
Lemma jwf_parse text j : parse text = Some j -> jwf j.
Proof. intros H. now apply parse_encodable in H as [H _]. Qed.
Lemma mem_in v l : mem_str v l = true <-> In v l.
Proof. apply mem_str_In. Qed.
Lemma find_creator_cases v c : find_creator creators v = Some c ->
  (In v supported020 /\ c = (supported020, new_result020)) \/ (In v supported040 /\ c = (supported040, new_result040)) \/
  (In v supported100 /\ c = (supported100, new_result100)).
Proof.
  change creators with [(supported020, new_result020); (supported040, new_result040); (supported100, new_result100)].
  cbn [find_creator fst]. destruct (mem_str v supported020) eqn:A; [apply mem_in in A; intros H; injection H as <-; auto|].
  destruct (mem_str v supported040) eqn:B; [apply mem_in in B; intros H; injection H as <-; auto|].
  destruct (mem_str v supported100) eqn:C; [apply mem_in in C; intros H; injection H as <-; auto|discriminate].
Qed.
Definition v02' : list string := ["0.1.0"; "0.2.0"].
Definition like020 (r : result) : Prop := match r with R020 _ => True | _ => False end.
Lemma create_inv v text r : create v text = Ok r ->
  exists j, parse text = Some j /\ wf_body int64 any_prefix r /\ right_version r /\
    Types.decode_version text = Ok (result_version r) /\
    (In v (versions_of r) \/ v = "" /\ like020 r).
Proof.
  assert (DV : forall j w, parse text = Some j -> dec_cni_version j = Some w -> Types.decode_version text = Ok (if String.eqb w "" then "0.1.0" else w)).
  { intros j w P V. unfold Types.decode_version. rewrite P. cbn [obind]. now rewrite V. }
  unfold create. destruct (find_creator creators v) as [c|] eqn:F; [|discriminate].
  apply find_creator_cases in F as [[IV ->]|[[IV ->]|[IV ->]]]; cbn [snd]; intros H.
  - unfold new_result020 in H. destruct (parse text) as [j|] eqn:P; [|discriminate]. cbn [obind] in H.
    destruct (dec_res020 j) as [x|] eqn:D; [|discriminate]. destruct (mem_str (v2_version x) supported020) eqn:M; [|discriminate].
    apply mem_in in M. exists j. split; [reflexivity|]. pose proof (dec_res020_wf _ _ D (jwf_parse _ _ P)) as W. pose proof (dec_res020_version _ _ D) as V.
    rewrite (DV _ _ eq_refl V). assert (IV' : In v v02' \/ v = "") by (cbn [In supported020 v02'] in *; intuition).
    destruct (String.eqb_spec (v2_version x) "") as [E|E]; injection H as <-; cbn [result_version set_version v2_version like020 versions_of].
    + split; [exact W|]. split; [left; reflexivity|]. split; [reflexivity|]. destruct IV'; auto.
    + split; [exact W|]. split; [unfold right_version; cbn [supported020 In] in M |- *; cbn; intuition|]. split; [reflexivity|destruct IV'; auto].
  - unfold new_result040 in H. destruct (parse text) as [j|] eqn:P; [|discriminate]. cbn [obind] in H.
    destruct (dec_res040 j) as [x|] eqn:D; [|discriminate]. destruct (mem_str (v4_version x) supported040) eqn:M; [|discriminate].
    apply mem_in in M. injection H as <-. exists j. split; [reflexivity|]. pose proof (dec_res040_wf _ _ D (jwf_parse _ _ P)) as W.
    rewrite (DV _ _ eq_refl (dec_res040_version _ _ D)). split; [exact W|]. split; [exact M|]. cbn [result_version versions_of]. split; [|auto]. f_equal.
    destruct (String.eqb_spec (v4_version x) "") as [E|]; [rewrite E in M; cbn in M; intuition discriminate|reflexivity].
  - unfold new_result100 in H. destruct (parse text) as [j|] eqn:P; [|discriminate]. cbn [obind] in H.
    destruct (dec_res100 j) as [x|] eqn:D; [|discriminate]. destruct (mem_str (v1_version x) supported100) eqn:M; [|discriminate].
    apply mem_in in M. injection H as <-. exists j. split; [reflexivity|]. pose proof (dec_res100_wf _ _ D (jwf_parse _ _ P)) as W.
    rewrite (DV _ _ eq_refl (dec_res100_version _ _ D)). split; [exact W|]. split; [exact M|]. cbn [result_version versions_of]. split; [|auto]. f_equal.
    destruct (String.eqb_spec (v1_version x) "") as [E|]; [rewrite E in M; cbn in M; intuition discriminate|reflexivity].
Qed.
Lemma dec_all_none {A} (dec : json -> option A) js l : dec_all (dec_ptr dec) js = Some l -> ~ In JNull js -> ~ In None l.
Proof.
  revert l. induction js as [|x js IH]; intros l H N; cbn [dec_all] in H; [injection H as <-; easy|].
  destruct (dec_ptr dec x) as [o|] eqn:E; [|discriminate]. destruct (dec_all (dec_ptr dec) js) as [l'|]; [|discriminate]. injection H as <-.
  intros [H|H]; [|revert H; apply (IH l' eq_refl); intros X; apply N; now right].
  subst o. apply N. left. destruct x; [reflexivity|..]; cbn [dec_ptr] in E; apply omap_some in E as (a & _ & E); discriminate.
Qed.
Lemma dec_list_none {A} (dec : json -> option A) v l : dec_list (dec_ptr dec) v = Some l -> (forall js, v = JArr js -> ~ In JNull js) -> ~ In None l.
Proof.
  destruct v as [| | | |js|]; try discriminate; cbn [dec_list]; intros H N; [injection H as <-; easy|]. eapply dec_all_none; [exact H|]. now apply N.
Qed.
Lemma decode_inv_in {A} (P : A -> Prop) step (zero : A) l a : P zero ->
  (forall a k v a', In (k, v) l -> P a -> step a k v = Some a' -> P a') -> decode_members step zero l = Some a -> P a.
Proof.
  revert zero. induction l as [|[k v] l IH]; intros zero Z S D; [injection D as <-; exact Z|].
  rewrite decode_members_cons in D. destruct (step zero k v) as [b|] eqn:E; [|discriminate]. eapply IH; [| |exact D].
  - eapply S; [now left|exact Z|exact E].
  - intros a1 k1 v1 a2 I. apply S. now right.
Qed.
Lemma dec_res040_complete j r : dec_res040 j = Some r -> no_null_entries j -> complete (R040 r).
Proof.
  destruct j as [| | | | |l]; try discriminate; [intros H _; injection H as <-; cbn; tauto|]. intros H N. unfold dec_res040, decode_struct in H.
  revert H. apply (decode_inv_in (fun r => complete (R040 r))); [cbn; tauto|]. intros a k v a' I (A & B & C) H.
  assert (G : entries_key k = true -> forall js, v = JArr js -> ~ In JNull js) by (intros K js ->; eapply N; eassumption). unfold entries_key in G.
  destruct (key_is "cniVersion" k); [apply omap_some in H as (? & _ & ->); cbn; tauto|].
  destruct (key_is "interfaces" k); [apply omap_some in H as (? & E & ->); cbn; split; [|tauto]; eapply dec_list_none; [exact E|auto]|].
  destruct (key_is "ips" k); [apply omap_some in H as (? & E & ->); cbn; split; [tauto|]; split; [|tauto]; eapply dec_list_none; [exact E|auto]|].
  destruct (key_is "routes" k); [apply omap_some in H as (? & E & ->); cbn; split; [tauto|]; split; [tauto|]; eapply dec_list_none; [exact E|auto]|].
  destruct (key_is "dns" k); [apply omap_some in H as (? & _ & ->); cbn; tauto|injection H as <-; cbn; tauto].
Qed.
Lemma dec_res100_complete j r : dec_res100 j = Some r -> no_null_entries j -> complete (R100 r).
Proof.
  destruct j as [| | | | |l]; try discriminate; [intros H _; injection H as <-; cbn; tauto|]. intros H N. unfold dec_res100, decode_struct in H.
  revert H. apply (decode_inv_in (fun r => complete (R100 r))); [cbn; tauto|]. intros a k v a' I (A & B & C) H.
  assert (G : entries_key k = true -> forall js, v = JArr js -> ~ In JNull js) by (intros K js ->; eapply N; eassumption). unfold entries_key in G.
  destruct (key_is "cniVersion" k); [apply omap_some in H as (? & _ & ->); cbn; tauto|].
  destruct (key_is "interfaces" k); [apply omap_some in H as (? & E & ->); cbn; split; [|tauto]; eapply dec_list_none; [exact E|auto]|].
  destruct (key_is "ips" k); [apply omap_some in H as (? & E & ->); cbn; split; [tauto|]; split; [|tauto]; eapply dec_list_none; [exact E|auto]|].
  destruct (key_is "routes" k); [apply omap_some in H as (? & E & ->); cbn; split; [tauto|]; split; [tauto|]; eapply dec_list_none; [exact E|auto]|].
  destruct (key_is "dns" k); [apply omap_some in H as (? & _ & ->); cbn; tauto|injection H as <-; cbn; tauto].
Qed.
Lemma create_complete v text r j : create v text = Ok r -> parse text = Some j -> no_null_entries j -> complete r.
Proof.
  unfold create. destruct (find_creator creators v) as [c|] eqn:F; [|discriminate].
  apply find_creator_cases in F as [[IV ->]|[[IV ->]|[IV ->]]]; cbn [snd]; intros H P N.
  - unfold new_result020 in H. rewrite P in H. cbn [obind] in H. destruct (dec_res020 j); [|discriminate].
    destruct (mem_str _ _); [|discriminate]. destruct (String.eqb _ _); injection H as <-; exact I.
  - unfold new_result040 in H. rewrite P in H. cbn [obind] in H. destruct (dec_res040 j) eqn:D; [|discriminate].
    destruct (mem_str _ _); [|discriminate]. injection H as <-. eapply dec_res040_complete; eassumption.
  - unfold new_result100 in H. rewrite P in H. cbn [obind] in H. destruct (dec_res100 j) eqn:D; [|discriminate].
    destruct (mem_str _ _); [|discriminate]. injection H as <-. eapply dec_res100_complete; eassumption.
Qed.
Lemma create_no_panic v text : create v text <> Panic.
Proof.
  unfold create. destruct (find_creator creators v) as [c|] eqn:F; [|discriminate].
  apply find_creator_cases in F as [[_ ->]|[[_ ->]|[_ ->]]]; cbn [snd]; unfold new_result020, new_result040, new_result100;
  destruct (obind _ _); try discriminate; destruct (mem_str _ _); try discriminate; destruct (String.eqb _ _); discriminate.
Qed.
