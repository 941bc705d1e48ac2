(** What a context expects of a key jar. *)
From Coq Require Import List NArith Bool String.
From Verif Require Import Base.Ustr Model.Cls Model.Value Model.KeyContext.
Import ListNotations.
Open Scope list_scope.
Open Scope N_scope.

(** a key jar holds keys per owner: exporting the keys of one owner and importing the text for another adds them there
    and changes nothing else; neither do the parameters for HTTP clients *)
Record holds {J K} (X : jars J) (keys : J -> ustr -> list K) : Prop := {
  h_has : forall j o, j_has X j o = true <-> keys j o <> [];
  h_move : forall j a t b j', j_export X j a = Ok t -> j_import_json X j t b = Ok j' ->
    forall o, keys j' o = if ueqb o b then keys j b ++ keys j a else keys j o;
  h_httpc : forall j v o, keys (j_httpc X j v) o = keys j o }.
(** exporting and importing does not fail *)
Definition moves {J} (X : jars J) : Prop := forall j a b, exists t j', j_export X j a = Ok t /\ j_import_json X j t b = Ok j'.
(** two configurations with the same entries but for some names *)
Definition same_but (names : list ustr) (c1 c2 : dict value) : Prop := forall k, ~ In k names -> dget c1 k = dget c2 k.
