(** C68: the text of addresses and prefixes. *)
From Coq Require Import String Ascii List Arith NArith ZArith Bool Lia.
From Verif Require Import Model.GoStr Model.NetIP Spec.VersionSpec Spec.TypesSpec Spec.AddrSpec Proofs.NetIPP Proofs.AddrP.
Import ListNotations.
Open Scope nat_scope.
Open Scope string_scope.

(** ParseCIDR (pkg/types/types.go:26-33), which decodes every "address", "ip" and "dst" member. *)
Theorem C68_prefix_text : forall s p, parse_cidr s = Some p <-> prefix_text s p.
Proof. exact parse_cidr_spec. Qed.
(** Text of net.IP members ("gateway", "gw"). *)
Theorem C68_address_text : forall s a, parse_ip s = Some a <-> exists bits, address_text s a bits.
Proof. exact parse_ip_spec. Qed.
Theorem C68_unique : forall s p p', prefix_text s p -> prefix_text s p' -> p = p'.
Proof. intros s p p' H H'. apply parse_cidr_spec in H, H'. congruence. Qed.
Theorem C68_unique_address : forall s a b n m, address_text s a n -> address_text s b m -> a = b /\ n = m.
Proof. intros s a b n m H H'. apply parse_addr_spec in H, H'. rewrite H in H'. now injection H' as -> ->. Qed.
(** What String writes is such text, for the same prefix or address. *)
Theorem C68_written : forall p, prefix_form p -> prefix_text (ipnet_string p) p.
Proof. intros p H. apply parse_cidr_spec. now apply parse_cidr_string. Qed.
Theorem C68_written_address : forall a, bytes16 a -> exists bits, address_text (ip_string a) a bits.
Proof. intros a H. apply parse_ip_spec. now apply parse_ip_string. Qed.
(** A mask that is not ones followed by zeros has no length: it is written in hexadecimal. *)
Theorem C68_irregular : forall p bits,
  bytes16 (n_ip p) -> address_text (ip_string (n_ip p)) (n_ip p) bits ->
  (8 * N.of_nat (List.length (n_mask p)))%N = bits -> Forall (fun x => (x < 256)%N) (n_mask p) ->
  (forall n, ~ leading_ones (n_mask p) n bits) ->
  exists sa sm, ipnet_string p = sa ++ "/" ++ sm /\ address_text sa (n_ip p) bits /\ mask_hex sm (n_mask p).
Proof.
  intros p bits B A L F N. exists (ip_string (n_ip p)), (hex_string (n_mask p)). split; [eapply irregular_string; eassumption|].
  split; [exact A|]. now apply mask_hex_string.
Qed.
(** Such text can be that of another prefix: 0.0.0.8 is written 00000008, which is read as /8. *)
Theorem C68_irregular_misread : exists p p',
  bytes16 (n_ip p) /\ address_text (ip_string (n_ip p)) (n_ip p) 32 /\ List.length (n_mask p) = 4 /\
  (forall n, ~ leading_ones (n_mask p) n 32) /\ ipnet_string p = "10.0.0.1/00000008" /\ prefix_text (ipnet_string p) p' /\ p' <> p /\
  n_mask p' = [255; 0; 0; 0]%N.
Proof.
  exists {| n_ip := v4in6 [10; 0; 0; 1]%N; n_mask := [0; 0; 0; 8]%N |}, {| n_ip := v4in6 [10; 0; 0; 1]%N; n_mask := [255; 0; 0; 0]%N |}.
  split; [split; [reflexivity|]; repeat (constructor; [reflexivity|]); constructor|]. split; [apply parse_addr_spec; vm_compute; reflexivity|].
  split; [reflexivity|]. split.
  - intros n [_ H]. cbn [n_mask] in H. destruct (H 0 0%N eq_refl) as [_ H0]. destruct (H 3 8%N eq_refl) as [_ H3].
    specialize (H0 0%N eq_refl). specialize (H3 4%N eq_refl). change (N.testbit 8 (7 - 4)) with true in H3. change (N.testbit 0 (7 - 0)) with false in H0.
    symmetry in H3, H0. apply N.ltb_lt in H3. apply N.ltb_ge in H0. cbn in H3, H0. lia.
  - split; [vm_compute; reflexivity|]. split; [apply parse_cidr_spec; vm_compute; reflexivity|]. split; [intros E; discriminate E|reflexivity].
Qed.
Theorem C68_irregular_nonvacuous : exists p,
  bytes16 (n_ip p) /\ address_text (ip_string (n_ip p)) (n_ip p) 32 /\ (8 * N.of_nat (List.length (n_mask p)))%N = 32%N /\
  Forall (fun x => (x < 256)%N) (n_mask p) /\ (forall n, ~ leading_ones (n_mask p) n 32) /\ ipnet_string p = "10.0.0.1/ff00ff01".
Proof.
  exists {| n_ip := v4in6 [10; 0; 0; 1]%N; n_mask := [255; 0; 255; 1]%N |}.
  split; [split; [reflexivity|]; repeat (constructor; [reflexivity|]); constructor|]. split; [apply parse_addr_spec; vm_compute; reflexivity|].
  split; [reflexivity|]. split; [cbn [n_mask]; repeat (constructor; [reflexivity|]); constructor|]. split.
  - intros n [_ H]. cbn [n_mask] in H. destruct (H 1 0%N eq_refl) as [_ H0]. destruct (H 3 1%N eq_refl) as [_ H3].
    specialize (H0 0%N eq_refl). specialize (H3 7%N eq_refl). change (N.testbit 1 (7 - 7)) with true in H3. change (N.testbit 0 (7 - 0)) with false in H0.
    symmetry in H3, H0. apply N.ltb_lt in H3. apply N.ltb_ge in H0. cbn in H3, H0. lia.
  - vm_compute; reflexivity.
Qed.
Theorem C68_nonvacuous :
  prefix_text "10.1.2.3/16" {| n_ip := v4in6 [10; 1; 2; 3]%N; n_mask := [255; 255; 0; 0]%N |} /\
  prefix_text "2001:DB8::1/60" {| n_ip := [32; 1; 13; 184; 0; 0; 0; 0; 0; 0; 0; 0; 0; 0; 0; 1]%N;
                                  n_mask := [255; 255; 255; 255; 255; 255; 255; 240; 0; 0; 0; 0; 0; 0; 0; 0]%N |} /\
  (exists bits, address_text "::ffff:192.0.2.1" (v4in6 [192; 0; 2; 1]%N) bits) /\
  (forall p, ~ prefix_text "10.1.2.3/33" p) /\ (forall p, ~ prefix_text "10.1.2.03/8" p) /\ (forall p, ~ prefix_text "10.1.2.3" p) /\
  (forall p, ~ prefix_text "1::2::3/8" p) /\ (forall p, ~ prefix_text "12345::/8" p).
Proof.
  rewrite <- !parse_cidr_spec, <- parse_ip_spec.
  split; [vm_compute; reflexivity|]. split; [vm_compute; reflexivity|]. split; [vm_compute; reflexivity|].
  repeat apply conj; intros p H; apply parse_cidr_spec in H; vm_compute in H; discriminate H.
Qed.
Print Assumptions C68_prefix_text.
Print Assumptions C68_address_text.
Print Assumptions C68_unique.
Print Assumptions C68_unique_address.
Print Assumptions C68_written.
Print Assumptions C68_written_address.
Print Assumptions C68_nonvacuous.
Print Assumptions C68_irregular.
Print Assumptions C68_irregular_misread.
Print Assumptions C68_irregular_nonvacuous.
