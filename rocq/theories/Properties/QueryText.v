(** C152: query texts are read exactly as their grammar says. *)
From Coq Require Import List NArith ZArith Bool String.
From Verif Require Import Base.Ustr Base.Percent Model.Value Model.Cls Model.Tables Model.Message Model.Converter Spec.GrammarSpec Spec.QueryTextSpec Proofs.QueryTextLemmas.
Import ListNotations.
Open Scope list_scope.
Open Scope N_scope.

(** a query text is read as the values of each name, in their order *)
Theorem C152_query : forall q l, query_reads q l -> forall g, parse_qs q = g <-> collected l g.
Proof. exact query_iff. Qed.
Print Assumptions C152_query.

(** a text without a meaning (escapes that are no UTF-8) shows in what is read: the replacement character *)
Theorem C152_malformed : forall q, (forall l, ~ query_reads q l) ->
  exists k vs, In (k, vs) (parse_qs q) /\ (In 65533 k \/ exists v, In v vs /\ In 65533 v).
Proof. exact malformed. Qed.
Print Assumptions C152_malformed.

(** how a query is written (escapes, their case, plus signs, fields without a value) does not matter for the message *)
Theorem C152_writing : forall C d q q' l, query_reads q l -> query_reads q' l -> l <> [] -> from_urlencoded C d q = from_urlencoded C d q'.
Proof. exact same_query. Qed.
Print Assumptions C152_writing.

(** what is written for fields with values is a query text with that meaning *)
Theorem C152_written : forall l q, urlencode l = Some q -> l <> [] -> (forall k v, In (k, v) l -> v <> []) -> query_reads q l.
Proof. exact written_query. Qed.
Print Assumptions C152_written.

(** and a key that a store reads back from the name of a file *)
Theorem C152_key : forall t s, spells t s -> qpkey_deserialize t = s.
Proof. exact spells_unquote. Qed.
Print Assumptions C152_key.

Example C152_cases :
  parse_qs (u "a=1&b=x%20y+z&a=2&c&d=&=e&f=g=h") = [(u "a", [u "1"; u "2"]); (u "b", [u "x y z"]); ([], [u "e"]); (u "f", [u "g=h"])] /\
  parse_qs (u "k=%E2%82%AC%c3%A9") = [(u "k", [[8364; 233]])] /\ parse_qs (u "k=100%&l=%zz") = [(u "k", [u "100%"]); (u "l", [u "%zz"])] /\
  parse_qs (u "k=%E2%82x") = [(u "k", [[65533; 120]])] /\ parse_qs (u "k=%C0%80") = [(u "k", [[65533; 65533]])] /\ parse_qs (u "a;b=1") = [(u "a;b", [u "1"])].
Proof. vm_compute. repeat split. Qed.
(** the hypotheses: two texts with one meaning, and one without *)
Example C152_meaning : let l := [(u "scope", u "openid a"); (u "state", u "%")] in
  query_reads (u "scope=openid+a&state=%25") l /\ query_reads (u "scope=openid%20%61&&x&state=%") l /\
  from_urlencoded cd_oauth2_AuthorizationRequest [] (u "scope=openid+a&state=%25") = from_urlencoded cd_oauth2_AuthorizationRequest [] (u "scope=openid%20%61&&x&state=%") /\
  ~ (exists l', query_reads (u "k=%FF") l').
Proof.
  cbv zeta.
  assert (Q1 : query_reads (u "scope=openid+a&state=%25") [(u "scope", u "openid a"); (u "state", u "%")]).
  { apply written_query; [vm_compute; reflexivity|discriminate|]. intros k v [H|[H|[]]]; injection H as <- <-; discriminate. }
  assert (Q2 : query_reads (u "scope=openid%20%61&&x&state=%") [(u "scope", u "openid a"); (u "state", u "%")]).
  { apply (query_more (u "scope=openid%20%61") [(u "scope", u "openid a")] (u "&x&state=%") [(u "state", u "%")]).
    - vm_compute. intros H. repeat (destruct H as [H|H]; [discriminate|]). exact H.
    - apply (field_pair (u "scope") (u "openid%20%61")); [vm_compute; intros H; repeat (destruct H as [H|H]; [discriminate|]); exact H|discriminate| |].
      + apply (quote_spells (u "scope")). vm_compute. reflexivity.
      + repeat (apply spells_plain; [discriminate|discriminate|]). apply (spells_escaped [37; 50; 48] 32 [32]); [left; split; reflexivity|apply (escapes_byte 50 48 2 0); [left; split; [split; discriminate|reflexivity]|left; split; [split; discriminate|reflexivity]|constructor]|].
        apply (spells_escaped [37; 54; 49] 97 [97]); [left; split; reflexivity|apply (escapes_byte 54 49 6 1); [left; split; [split; discriminate|reflexivity]|left; split; [split; discriminate|reflexivity]|constructor]|]. constructor.
    - apply (query_more [] [] (u "x&state=%") [(u "state", u "%")]); [intros []|apply field_bare; intros []|].
      apply (query_more (u "x") [] (u "state=%") [(u "state", u "%")]); [intros [H|[]]; discriminate|apply field_bare; intros [H|[]]; discriminate|].
      apply query_last; [vm_compute; intros H; repeat (destruct H as [H|H]; [discriminate|]); exact H|].
      apply (field_pair (u "state") (u "%")); [vm_compute; intros H; repeat (destruct H as [H|H]; [discriminate|]); exact H|discriminate|apply (quote_spells (u "state")); vm_compute; reflexivity|].
      apply spells_percent; [|constructor]. intros (h & l & r & a & b & E & _). discriminate. }
  split; [exact Q1|]. split; [exact Q2|]. split; [apply (same_query _ _ _ _ _ Q1 Q2); discriminate|].
  intros [l' H]. exact (no_ff_query l' H).
Qed.
