(** Messages that keep to the specification are accepted by the one who reads them. *)
From Coq Require Import List NArith ZArith Bool String.
From Verif Require Import Base.Ustr Base.UstrLemmas Model.Cls Model.Value Model.Pspec Model.Tables Model.Json Model.Message Model.Env Model.Verify
  Spec.MessageSpec Spec.CodecSpec Spec.RoundTripSpec Spec.VerifySpec Spec.RequiredSpec Spec.ProtocolSpec
  Proofs.ValueLemmas Proofs.RoundTrip Proofs.ProtocolLemmas.
Import ListNotations.
Open Scope list_scope.
Open Scope N_scope.

(** the parameters with defaults and those of the table that are required are among the ones of the specification *)
Definition sent_ok (x : cls * list ustr) : bool :=
  forallb (fun kv : ustr * value => umem (fst kv) (snd x)) (cd_default (cdef (fst x))) &&
  forallb (fun ks : ustr * pspec => negb (p_req (snd ks)) || umem (fst ks) (snd x)) (cd_param (cdef (fst x))).
Lemma all_sent_ok : forallb sent_ok spec_demands = true.
Proof. vm_compute. reflexivity. Qed.

Lemma demands_cover : forall c l d, In (c, l) spec_demands -> (forall a, In a l -> has_parameter d a) ->
  covers_defaults (cdef c) d /\ has_required (cdef c) d.
Proof.
  intros c l d Hc Hl. pose proof all_sent_ok as H. rewrite forallb_forall in H. specialize (H _ Hc). unfold sent_ok in H. cbn [fst snd] in H.
  apply andb_prop in H. destruct H as [H1 H2]. rewrite forallb_forall in H1, H2.
  assert (P : forall a, In a l -> In a (map fst d)).
  { intros a Ha. destruct (Hl a Ha) as (v & Hv & _). apply dget_In in Hv. apply (in_map fst) in Hv. exact Hv. }
  split.
  - intros k Hk. apply in_map_iff in Hk. destruct Hk as (kv & <- & Hk). specialize (H1 _ Hk). apply umem_In in H1. apply P, H1.
  - intros k s Hs Hr. specialize (H2 _ Hs). cbn [fst snd] in H2. rewrite Hr in H2. cbn [negb orb] in H2. apply umem_In in H2. apply P, H2.
Qed.

Lemma same_accepted : forall E K hdr c l d d', In (c, l) spec_demands -> (forall a, In a l -> has_parameter d a) -> spec_choices c d ->
  (forall v, subclass c C_oauth2_ResponseMessage = true -> dget d (u "error_description") = Some v -> desc_ok v) ->
  (forall k, dget d' k = dget d k) -> verify E K hdr c d' = (d', Ok true).
Proof.
  intros E K hdr c l d d' Hc Hl Hs He Hg. apply (c134 E K hdr c l); [exact Hc|..].
  - intros a Ha. destruct (Hl a Ha) as (v & Hv & Hn). exists v. rewrite Hg. split; assumption.
  - intros k p vs v Hi Hv. rewrite Hg in Hv. exact (Hs k p vs v Hi Hv).
  - intros v Hr Hv. rewrite Hg in Hv. exact (He v Hr Hv).
Qed.

Lemma sent_query : forall E K hdr c l lax d, In (c, l) spec_demands -> (forall a, In a l -> has_parameter d a) -> spec_choices c d ->
  (forall v, subclass c C_oauth2_ResponseMessage = true -> dget d (u "error_description") = Some v -> desc_ok v) ->
  content urlable (cd_param (cdef c)) d ->
  exists t d', to_urlencoded (cdef c) lax d = Ok t /\ from_urlencoded (cdef c) (cd_default (cdef c)) t = (d', Ok tt) /\
    verify E K hdr c d' = (d', Ok true) /\ forall k, dget d' k = dget d k.
Proof.
  intros E K hdr c l lax d Hc Hl Hs He Hu. destruct (demands_cover c l d Hc Hl) as [H1 H2].
  destruct (url_round_trip (cdef c) lax d Hu H1 (or_intror H2)) as (t & d' & A & B & G).
  exists t, d'. split; [exact A|]. split; [exact B|]. split; [|exact G]. exact (same_accepted E K hdr c l d d' Hc Hl Hs He G).
Qed.
Lemma sent_json : forall E K hdr c l d, In (c, l) spec_demands -> (forall a, In a l -> has_parameter d a) -> spec_choices c d ->
  (forall v, subclass c C_oauth2_ResponseMessage = true -> dget d (u "error_description") = Some v -> desc_ok v) ->
  content canon (cd_param (cdef c)) d ->
  exists t d', to_json (cdef c) d = Ok t /\ from_json (cdef c) (cd_default (cdef c)) t = (d', Ok tt) /\
    verify E K hdr c d' = (d', Ok true) /\ forall k, dget d' k = dget d k.
Proof.
  intros E K hdr c l d Hc Hl Hs He Hu. destruct (demands_cover c l d Hc Hl) as [H1 H2].
  destruct (json_round_trip (cdef c) d Hu H1) as (t & d' & A & B & G).
  exists t, d'. split; [exact A|]. split; [exact B|]. split; [|exact G]. exact (same_accepted E K hdr c l d d' Hc Hl Hs He G).
Qed.
Lemma sent_dict : forall E K hdr c l d, In (c, l) spec_demands -> (forall a, In a l -> has_parameter d a) -> spec_choices c d ->
  (forall v, subclass c C_oauth2_ResponseMessage = true -> dget d (u "error_description") = Some v -> desc_ok v) ->
  content canon (cd_param (cdef c)) d ->
  exists r d', to_dict (cdef c) d = Ok r /\ from_dict (cdef c) (cd_default (cdef c)) (VDict r) = (d', Ok tt) /\
    verify E K hdr c d' = (d', Ok true) /\ forall k, dget d' k = dget d k.
Proof.
  intros E K hdr c l d Hc Hl Hs He Hu. destruct (demands_cover c l d Hc Hl) as [H1 H2].
  destruct (dict_round_trip (cdef c) d Hu H1) as (t & d' & A & B & G).
  exists t, d'. split; [exact A|]. split; [exact B|]. split; [|exact G]. exact (same_accepted E K hdr c l d d' Hc Hl Hs He G).
Qed.
