(** Proofs of C159. *)
From Coq Require Import List NArith Bool String Lia.
From Verif Require Import Base.Ustr Base.Percent Model.Cls Model.Value Model.Pspec Model.Tables Model.Json Model.Message Model.Dispatch Model.Serializers
  Spec.JsonSpec Spec.MessageSpec Spec.CodecSpec Spec.RoundTripSpec Spec.SerializerSpec Proofs.ValueLemmas Proofs.JsonLemmas Base.PercentLemmas Proofs.EncodeLemmas Proofs.RoundTrip Base.UstrLemmas.
From Verif Require Proofs.FuelLemmas.
Import ListNotations.
Open Scope list_scope.
Open Scope N_scope.

Lemma table_11 : forall c, FuelLemmas.same_table (lib_n 12) (lib_n 11) (cd_param (cdef c)).
Proof. intro c. apply FuelLemmas.deep_same; [apply FuelLemmas.all_deep|lia]. Qed.
Lemma read_at : forall c v f, deser_cls (lib_n 11) c v f = deser_cls the_lib c v f.
Proof. intros. symmetry. apply FuelLemmas.same_deser_cls, table_11. Qed.
Lemma deser_at : forall k v f, l_deser the_lib k v f = deser_step (lib_n 11) k v f.
Proof. reflexivity. Qed.

(** what the texts and dictionaries of a message read as *)
Lemma from_dict_val : forall c r d', from_dict (cdef c) (cd_default (cdef c)) (VDict r) = (d', Ok tt) -> deser_cls the_lib c (VDict r) Fdict = Ok (VMsg c d').
Proof. intros c r d' H. unfold deser_cls. unfold from_dict in H. rewrite H. reflexivity. Qed.
Lemma from_json_val : forall c t d', from_json (cdef c) (cd_default (cdef c)) t = (d', Ok tt) -> deser_cls the_lib c (VStr t) Fjson = Ok (VMsg c d').
Proof. intros c r d' H. unfold deser_cls. unfold from_json in H. rewrite H. reflexivity. Qed.
Lemma from_url_val : forall c t d', from_urlencoded (cdef c) (cd_default (cdef c)) t = (d', Ok tt) -> deser_cls the_lib c (VStr t) Furl = Ok (VMsg c d').
Proof. intros c r d' H. unfold deser_cls. cbn [from_urlencoded_gen]. unfold from_urlencoded in H. rewrite H. reflexivity. Qed.

Lemma one_of_ok : forall c v f m, deser_cls the_lib c v (match f with Furl => Furl | _ => Fjson end) = Ok m ->
  (forall w, v = VStr w -> de_one_of (lib_n 11) c v f = Ok m).
Proof.
  intros c v f m H w ->. unfold de_one_of. destruct f; cbn [bind dumps_unless_str]; rewrite read_at, H; reflexivity.
Qed.
(** a reader of a JSON text *)
Lemma read_text : forall c k t m, reader c k -> deser_cls the_lib c (VStr t) Fjson = Ok m -> l_deser the_lib k (VStr t) Fjson = Ok m.
Proof.
  intros c k t m R H. rewrite deser_at. destruct R; try subst c; cbn [deser_step de_msg de_link dumps_unless_str bind]; try (rewrite read_at; exact H).
  eapply one_of_ok; [exact H|reflexivity].
Qed.
(** a reader of a dictionary *)
Lemma read_dictionary : forall c k r t m f, reader c k -> json_dumps (VDict r) = Ok t -> deser_cls the_lib c (VStr t) Fjson = Ok m ->
  deser_cls the_lib c (VDict r) Fdict = Ok m -> f <> Furl -> l_deser the_lib k (VDict r) f = Ok m.
Proof.
  intros c k r t m f R J H1 H2 F. rewrite deser_at. destruct R; try subst c; cbn [deser_step de_msg de_link].
  - unfold de_one_of. destruct f; try congruence; cbn [dumps_unless_str]; rewrite J; cbn [bind]; rewrite read_at, H1; reflexivity.
  - destruct f; try congruence; rewrite J; cbn [bind]; rewrite read_at; exact H1.
  - destruct f; try congruence; cbn [bind dumps_unless_str]; [rewrite read_at; exact H2|rewrite J; cbn [bind]; rewrite read_at; exact H1].
  - destruct f; try congruence; rewrite J; cbn [bind]; rewrite read_at; exact H1.
  - destruct f; try congruence; rewrite J; cbn [bind]; rewrite read_at; exact H1.
Qed.

(** ** writing *)
Definition json_form (c : cls) (d : dict value) (v : value) : Prop :=
  (exists t, to_json (cdef c) d = Ok t /\ v = VStr t) \/ (exists r, to_dict (cdef c) d = Ok r /\ v = VDict r).
Lemma serialize_dict : forall c d r lev, to_dict (cdef c) d = Ok r -> serialize_at c d (u "dict") lev = Ok (VDict r).
Proof. intros c d r [|lev] H; cbn [serialize_at]; unfold serialize; cbn [andb]; rewrite ?H; reflexivity. Qed.
Lemma serialize_json : forall c d r t lev, to_dict (cdef c) d = Ok r -> to_json (cdef c) d = Ok t ->
  serialize_at c d (u "json") lev = Ok (match lev with O => VStr t | S _ => VDict r end).
Proof. intros c d r t [|lev] H J; cbn [serialize_at]; unfold serialize; cbn [andb]; rewrite ?H, ?J; reflexivity. Qed.
Lemma root : forall c, subclass c C_Message = true.
Proof. intros []; vm_compute; reflexivity. Qed.
Lemma writes_dict : forall c ser d r lev, writer c ser -> to_dict (cdef c) d = Ok r -> ser (VMsg c d) (u "dict") lev = Ok (VDict r).
Proof.
  intros c ser d r lev W H. destruct W.
  - unfold msg_ser, ser_instance. rewrite root. apply (serialize_dict c d r lev H).
  - unfold msg_ser_json. destruct lev; apply (serialize_dict c d r _ H).
  - unfold claims_ser. cbn [bind]. apply (serialize_dict c d r _ H).
  - subst c. apply (serialize_dict _ d r lev H).
  - unfold any_ser, msg_ser, ser_instance. rewrite root. apply (serialize_dict c d r lev H).
Qed.
Lemma writes_json : forall c ser d r t lev, writer c ser -> to_dict (cdef c) d = Ok r -> to_json (cdef c) d = Ok t ->
  ser (VMsg c d) (u "json") lev = Ok (VStr t) \/ ser (VMsg c d) (u "json") lev = Ok (VDict r).
Proof.
  intros c ser d r t lev W H J. pose proof (serialize_json c d r t) as X. destruct W.
  - unfold msg_ser, ser_instance. rewrite root. cbn [umem]. specialize (X lev H J). destruct lev; [left|right]; exact X.
  - unfold msg_ser_json. destruct lev; [left; apply (X O H J)|right; apply (serialize_dict c d r _ H)].
  - unfold claims_ser. cbn [bind]. right. apply (X (S lev) H J).
  - subst c. specialize (X lev H J). destruct lev; [left|right]; exact X.
  - unfold any_ser, msg_ser, ser_instance. rewrite root. specialize (X lev H J). destruct lev; [left|right]; exact X.
Qed.
Lemma written_read : forall c ser k d f g lev, writer c ser -> reader c k -> nested_format f g ->
  content canon (cd_param (cdef c)) d -> covers_defaults (cdef c) d ->
  exists v d', ser (VMsg c d) f lev = Ok v /\ l_deser the_lib k v g = Ok (VMsg c d') /\ forall x, dget d' x = dget d x.
Proof.
  intros c ser k d f g lev W R F H1 H2. destruct (round_trip (cdef c) d H1 H2) as (r & t & d' & A1 & A2 & A3 & A4 & A5).
  assert (J : json_dumps (VDict r) = Ok t) by (unfold to_json in A3; rewrite A1 in A3; exact A3).
  apply from_dict_val in A2. apply from_json_val in A4.
  destruct F.
  - destruct (writes_json c ser d r t lev W A1 A3) as [E|E]; rewrite E; do 2 eexists; (split; [reflexivity|]); (split; [|exact A5]).
    + apply (read_text c); assumption.
    + apply (read_dictionary c k r t); try assumption. discriminate.
  - rewrite (writes_dict c ser d r lev W A1). do 2 eexists. split; [reflexivity|]. split; [|exact A5].
    apply (read_dictionary c k r t); try assumption. discriminate.
Qed.
Lemma written_read_url : forall c ser k d, url_writer c ser -> url_reader c k -> content urlable (cd_param (cdef c)) d -> covers_defaults (cdef c) d ->
  has_required (cdef c) d ->
  exists t d', ser (VMsg c d) (u "urlencoded") 0%nat = Ok (VStr t) /\ l_deser the_lib k (VStr t) Furl = Ok (VMsg c d') /\ forall x, dget d' x = dget d x.
Proof.
  intros c ser k d W R H1 H2 H3. destruct (url_round_trip (cdef c) false d H1 H2 (or_intror H3)) as (t & d' & A1 & A2 & A3).
  apply from_url_val in A2. exists t, d'. split; [|split; [|exact A3]].
  - assert (X : serialize_at c d (u "urlencoded") 0 = Ok (VStr t)) by (cbn [serialize_at]; unfold serialize; rewrite A1; reflexivity).
    destruct W; [|subst c|]; unfold any_ser, msg_ser, link_ser, ser_instance; try rewrite root; exact X.
  - rewrite deser_at. destruct R; try subst c; cbn [deser_step de_msg de_link]; try (rewrite read_at; exact A2).
    eapply one_of_ok; [exact A2|reflexivity].
Qed.
(** ** dictionaries *)
Lemma plain_read : forall c ser k d d' f g lev, In ser [msg_ser; link_ser; claims_ser; msg_ser_json] -> reader c k -> nested_format f g -> json_value (VDict d) ->
  from_dict (cdef c) (cd_default (cdef c)) (VDict d) = (d', Ok tt) ->
  exists v, ser (VDict d) f lev = Ok v /\ (f = u "dict" -> v = VDict d) /\ l_deser the_lib k v g = Ok (VMsg c d').
Proof.
  intros c ser k d d' f g lev W R F J H. apply from_dict_val in H. destruct (json_codec _ J) as (t & J1 & _ & J2).
  assert (T : deser_cls the_lib c (VStr t) Fjson = Ok (VMsg c d')).
  { unfold deser_cls in *. cbn [from_json_gen]. rewrite J2. exact H. }
  assert (A : forall g', g' <> Furl -> l_deser the_lib k (VDict d) g' = Ok (VMsg c d')) by (intros g' G; apply (read_dictionary c k d t); assumption).
  assert (B : l_deser the_lib k (VStr t) Fjson = Ok (VMsg c d')) by (apply (read_text c); assumption).
  assert (JS : json_serializer (VDict d) = Ok (VStr t)) by (unfold json_serializer; rewrite J1; reflexivity).
  destruct F.
  - assert (exists v, ser (VDict d) (u "json") lev = Ok v /\ (v = VDict d \/ v = VStr t)) as (v & V1 & [-> | ->]).
    { destruct W as [<-|[<-|[<-|[<-|[]]]]].
      - exists (VStr t). split; [exact JS|right; reflexivity].
      - exists (VStr t). split; [exact JS|right; reflexivity].
      - destruct lev; [exists (VStr t); split; [exact JS|right; reflexivity]|exists (VDict d); split; [reflexivity|left; reflexivity]].
      - destruct lev; [exists (VStr t); split; [exact JS|right; reflexivity]|exists (VDict d); split; [reflexivity|left; reflexivity]]. }
    + exists (VDict d). split; [exact V1|]. split; [reflexivity|]. apply A. discriminate.
    + exists (VStr t). split; [exact V1|]. split; [intro E; discriminate|exact B].
  - exists (VDict d). split; [|split; [reflexivity|apply A; discriminate]].
    destruct W as [<-|[<-|[<-|[<-|[]]]]]; destruct lev; reflexivity.
Qed.
(** ** other formats *)
Lemma other_formats : forall f lev v, ~ In f three_formats ->
  msg_ser v f lev = Err EOidcMsgError /\ link_ser v f lev = Err EOidcMsgError /\
  ((forall c d, v <> VMsg c d) -> (forall l, v <> VList l) -> claims_ser v f lev = Err EOidcMsgError) /\
  (forall c d, v = VMsg c d -> f <> u "jwt" -> f <> u "jwe" -> claims_ser v f lev = Err EAttributeError).
Proof.
  intros f lev v H.
  assert (U : ueqb f (u "urlencoded") = false) by (destruct (ueqb f (u "urlencoded")) eqn:E; [apply ueqb_eq in E; subst f; exfalso; apply H; left; reflexivity|reflexivity]).
  assert (J : ueqb f (u "json") = false) by (destruct (ueqb f (u "json")) eqn:E; [apply ueqb_eq in E; subst f; exfalso; apply H; right; left; reflexivity|reflexivity]).
  assert (D : ueqb f (u "dict") = false) by (destruct (ueqb f (u "dict")) eqn:E; [apply ueqb_eq in E; subst f; exfalso; apply H; right; right; left; reflexivity|reflexivity]).
  assert (M : umem f [u "urlencoded"; u "json"] = false).
  { destruct (umem f [u "urlencoded"; u "json"]) eqn:E; [|reflexivity]. apply umem_In in E. exfalso. apply H. destruct E as [E|[E|[]]]; [left|right; left]; exact E. }
  assert (S : forall i, ser_instance i v f lev = Err EOidcMsgError) by (intro i; unfold ser_instance; rewrite M, D; reflexivity).
  split; [apply S|]. split; [apply S|]. split.
  - intros H1 H2. unfold claims_ser. destruct v; try (exfalso; eapply H1; reflexivity); try (exfalso; eapply H2; reflexivity); cbn [bind]; rewrite U, J, D; reflexivity.
  - intros c d -> W E. unfold claims_ser. cbn [bind serialize_at]. rewrite J, U. cbn [andb]. unfold serialize. rewrite U, D, J.
    destruct (ueqb f (u "jwt")) eqn:E1; [apply ueqb_eq in E1; contradiction|].
    destruct (ueqb f (u "jwe")) eqn:E2; [apply ueqb_eq in E2; contradiction|]. reflexivity.
Qed.
(** ** dictionaries as query texts *)
Lemma query_dictionary : forall ser lev (l : list (ustr * ustr)), In ser [msg_ser; link_ser; claims_ser] ->
  (forall k v, In (k, v) l -> scalars k = true /\ scalars v = true /\ v <> []) ->
  exists t, ser (VDict (map (fun kv : ustr * ustr => (fst kv, VStr (snd kv))) l)) (u "urlencoded") lev = Ok (VStr t) /\ parse_qsl t = l.
Proof.
  intros ser lev l W H. destruct (urlencode_total l) as [t T]; [intros k v Hin; destruct (H k v Hin) as (A & B & _); auto|].
  exists t. split; [|apply (urlencode_parse_qsl _ _ T); intros k v Hin; apply (H k v Hin)].
  assert (E : urlencode_items (map (fun kv : ustr * ustr => (fst kv, VStr (snd kv))) l) = Ok t).
  { unfold urlencode_items.
    replace (mapM (fun kv : ustr * value => do x <- py_text (snd kv) ; Ok (fst kv, x)) (map (fun kv : ustr * ustr => (fst kv, VStr (snd kv))) l)) with (Ok l);
      [cbn [bind]; rewrite T; reflexivity|].
    clear. induction l as [|[k v] l IH]; [reflexivity|]. cbn [map mapM]. rewrite <- IH. reflexivity. }
  destruct W as [<-|[<-|[<-|[]]]]; [unfold msg_ser, ser_instance|unfold link_ser, ser_instance|unfold claims_ser; cbn [bind]];
    change ((do x <- urlencode_items (map (fun kv : ustr * ustr => (fst kv, VStr (snd kv))) l) ; Ok (VStr x)) = Ok (VStr t)); rewrite E; reflexivity.
Qed.
(** ** dictionaries of other values as query texts *)
Notation ascii := (Forall (fun c : N => 32 <= c <= 126)).
Ltac asc := repeat (apply Forall_cons; [vm_compute; split; discriminate|]); apply Forall_nil.
Lemma quoted_by : forall q s, quoted q (flat_map (fun c => if (c =? 92) || (c =? q) then [92; c] else [c]) s) s.
Proof.
  intros q s. induction s as [|c s IH]; [constructor|]. cbn [flat_map]. destruct ((c =? 92) || (c =? q)) eqn:E.
  - apply (QEscaped q c _ s); [|exact IH]. apply orb_true_iff in E. destruct E as [E|E]; apply N.eqb_eq in E; auto.
  - apply orb_false_iff in E. destruct E as [E1 E2]. apply N.eqb_neq in E1, E2. apply (QPlain q c _ s); assumption.
Qed.
Lemma escaped_ascii : forall q s, ascii s -> ascii (flat_map (fun c => if (c =? 92) || (c =? q) then [92; c] else [c]) s).
Proof.
  intros q s H. induction H as [|c s A B IH]; [constructor|]. cbn [flat_map]. apply Forall_app. split; [|exact IH].
  destruct ((c =? 92) || (c =? q)); repeat constructor; lia.
Qed.
Lemma existsb_eq : forall x s, existsb (N.eqb x) s = true <-> In x s.
Proof.
  intros x s. rewrite existsb_exists. split; [intros (y & I & E); apply N.eqb_eq in E; subst; exact I|]. intro I. exists x. split; [exact I|apply N.eqb_refl].
Qed.
Lemma repr_text_literal : forall s, ascii s -> exists t, repr_text s = Ok t /\ string_literal t s /\ ascii t.
Proof.
  intros s H. unfold repr_text. replace (forallb (fun c => (32 <=? c) && (c <? 127)) s) with true.
  2:{ symmetry. apply forallb_forall. intros c I. rewrite Forall_forall in H. specialize (H c I). lia. }
  cbv zeta. eexists. split; [reflexivity|].
  destruct (existsb (N.eqb 39) s && negb (existsb (N.eqb 34) s)) eqn:E.
  - apply andb_true_iff in E. destruct E as [E1 E2]. apply existsb_eq in E1. apply negb_true_iff in E2. split.
    + apply (SlDouble _ s); [exact E1| |apply quoted_by]. intro I. apply existsb_eq in I. congruence.
    + constructor; [lia|]. apply Forall_app. split; [apply escaped_ascii, H|repeat constructor; lia].
  - split.
    + apply (SlSingle _ s); [|apply quoted_by]. intros [I1 I2]. apply existsb_eq in I1. rewrite I1 in E. cbn [andb] in E. apply negb_false_iff, existsb_eq in E. exact (I2 E).
    + constructor; [lia|]. apply Forall_app. split; [apply escaped_ascii, H|repeat constructor; lia].
Qed.
Lemma join_ascii : forall sep ts, ascii sep -> Forall ascii ts -> ascii (join sep ts).
Proof.
  intros sep ts S H. induction H as [|t ts A B IH]; [constructor|]. destruct ts as [|t' ts]; [exact A|].
  change (join sep (t :: t' :: ts)) with (t ++ sep ++ join sep (t' :: ts)). repeat (apply Forall_app; split; [assumption|]). exact IH.
Qed.
Lemma literal_ascii_int : forall z, ascii (dec_Z z).
Proof. intros [|p|p]; cbn [dec_Z]; [repeat constructor; lia|apply dec_N_printable|constructor; [lia|apply dec_N_printable]]. Qed.
Lemma py_repr_literal : forall v, printable_value v -> exists t, py_repr v = Ok t /\ literal t v /\ ascii t.
Proof.
  intro v. induction v as [|b|z|q|s|l IH|d IH|c d IH] using value_ind'; intro H; try (exfalso; inversion H; fail).
  - eexists. split; [reflexivity|]. split; [econstructor 1|asc].
  - destruct b; eexists; (split; [reflexivity|]; split; [first [exact LTrue|exact LFalse]|asc]).
  - eexists. split; [reflexivity|]. split; [constructor|apply literal_ascii_int].
  - inversion H as [| | |s' A| |]; subst. destruct (repr_text_literal s A) as (t & R & B & C). exists t. split; [exact R|]. split; [constructor; exact B|exact C].
  - inversion H as [| | | |l' A|]; subst. clear H.
    assert (W : exists ts, mapM py_repr l = Ok ts /\ Forall2 literal ts l /\ Forall ascii ts).
    { induction IH as [|x l P Q IH]; [exists []; repeat split; constructor|]. destruct (P (A x (or_introl eq_refl))) as (t & E1 & E2 & E3).
      destruct (IH (fun y I => A y (or_intror I))) as (ts & F1 & F2 & F3). exists (t :: ts). cbn [mapM]. rewrite E1. cbn [bind]. rewrite F1.
      split; [reflexivity|]. split; constructor; assumption. }
    destruct W as (ts & W1 & W2 & W3). cbn [py_repr]. rewrite W1. cbn [bind]. eexists. split; [reflexivity|]. split; [apply (LList ts l W2)|].
    constructor; [lia|]. apply Forall_app. split; [apply join_ascii; [repeat constructor; lia|exact W3]|repeat constructor; lia].
  - inversion H as [| | | | |d' A]; subst. clear H.
    set (go := fix go (d : list (ustr * value)) : res (list ustr) :=
                  match d with
                  | [] => Ok []
                  | (k, x) :: r => do a <- repr_text k ; do b <- py_repr x ; do ts <- go r ; Ok ((a ++ [58; 32] ++ b) :: ts)
                  end).
    assert (W : exists ks ts, go d = Ok (map (fun kt : ustr * ustr => fst kt ++ u ": " ++ snd kt) (combine ks ts)) /\
      Forall2 (fun t (kv : ustr * value) => string_literal t (fst kv)) ks d /\ Forall2 (fun t (kv : ustr * value) => literal t (snd kv)) ts d /\
      Forall ascii ks /\ Forall ascii ts).
    { induction IH as [|[k x] d P Q IH]; [exists [], []; repeat split; constructor|]. destruct (A k x (or_introl eq_refl)) as [A1 A2].
      destruct (repr_text_literal k A1) as (a & E1 & E2 & E3). destruct (P A2) as (b & E4 & E5 & E6).
      destruct (IH (fun k' y I => A k' y (or_intror I))) as (ks & ts & F1 & F2 & F3 & F4 & F5).
      exists (a :: ks), (b :: ts). cbn [go]. fold go. rewrite E1. cbn [bind]. cbn [snd] in E4. rewrite E4. cbn [bind]. rewrite F1.
      split; [reflexivity|]. repeat split; constructor; assumption. }
    destruct W as (ks & ts & W1 & W2 & W3 & W4 & W5).
    assert (E : py_repr (VDict d) = Ok (u "{" ++ join (u ", ") (map (fun kt : ustr * ustr => fst kt ++ u ": " ++ snd kt) (combine ks ts)) ++ u "}")).
    { change ((do ts <- go d ; Ok (123 :: join [44; 32] ts ++ [125])) = Ok (u "{" ++ join (u ", ") (map (fun kt : ustr * ustr => fst kt ++ u ": " ++ snd kt) (combine ks ts)) ++ u "}")).
      rewrite W1. reflexivity. }
    exists (u "{" ++ join (u ", ") (map (fun kt : ustr * ustr => fst kt ++ u ": " ++ snd kt) (combine ks ts)) ++ u "}").
    split; [exact E|]. split; [apply (LDict ks ts d W2 W3)|].
    apply Forall_app. split; [asc|]. apply Forall_app. split; [|asc].
    apply join_ascii; [asc|]. apply Forall_forall. intros t I. apply in_map_iff in I. destruct I as ([a b] & <- & I).
    apply in_combine_l in I as I1. apply in_combine_r in I as I2. rewrite Forall_forall in W4, W5. cbn [fst snd].
    apply Forall_app. split; [exact (W4 a I1)|]. apply Forall_app. split; [asc|exact (W5 b I2)].
Qed.
Lemma literal_nonempty : forall t v, literal t v -> (forall s, v <> VStr s) -> t <> [].
Proof.
  intros t v H N. destruct H; try discriminate; [|destruct (N s eq_refl)].
  destruct z as [|p|p]; cbn [dec_Z]; [discriminate|apply dec_N_nonempty|discriminate].
Qed.
Lemma query_values : forall ser lev d, In ser [msg_ser; link_ser; claims_ser] -> printable_value (VDict d) -> (forall k, ~ In (k, VStr []) d) ->
  exists t l, ser (VDict d) (u "urlencoded") lev = Ok (VStr t) /\ parse_qsl t = l /\
    Forall2 (fun (f : ustr * ustr) (kv : ustr * value) => fst f = fst kv /\ field_text (snd kv) (snd f)) l d.
Proof.
  intros ser lev d W H N. inversion H as [| | | | |d' A]; subst. clear H.
  assert (L : exists l, mapM (fun kv : ustr * value => do x <- py_text (snd kv) ; Ok (fst kv, x)) d = Ok l /\
    Forall2 (fun (f : ustr * ustr) (kv : ustr * value) => fst f = fst kv /\ field_text (snd kv) (snd f)) l d /\
    (forall k v, In (k, v) l -> ascii k /\ ascii v /\ v <> [])).
  { induction d as [|[k v] d IH]; [exists []; split; [reflexivity|]; split; [constructor|intros k v []]|].
    destruct IH as (l & E & F & G); [intros k' I; apply (N k'); right; exact I|intros k' x I; apply (A k' x (or_intror I))|].
    destruct (A k v (or_introl eq_refl)) as [A1 A2].
    assert (T : exists t, py_text v = Ok t /\ field_text v t /\ ascii t /\ t <> []).
    { destruct (py_repr_literal v A2) as (t & R1 & R2 & R3).
      destruct v as [|b|z|q|s|vl|vd|c vd]; try (exists t; split; [exact R1|]; split; [exact R2|]; split; [exact R3|]; apply (literal_nonempty _ _ R2); discriminate).
      inversion A2 as [| | |s' As| |]; subst. exists s. split; [reflexivity|]. split; [reflexivity|]. split; [exact As|]. intros ->. apply (N k). left. reflexivity. }
    destruct T as (t & T1 & T2 & T3 & T4). exists ((k, t) :: l). cbn [mapM fst snd]. rewrite T1. cbn [bind]. rewrite E. split; [reflexivity|].
    split; [constructor; [split; [reflexivity|exact T2]|exact F]|]. intros k' v' [I|I]; [injection I as <- <-; auto|apply (G k' v' I)]. }
  destruct L as (l & E & F & G). destruct (urlencode_total l) as [t T].
  { intros k v I. destruct (G k v I) as (G1 & G2 & _). split; apply printable_scalars; assumption. }
  exists t, l. split; [|split; [apply (urlencode_parse_qsl _ _ T); intros k v I; apply (G k v I)|exact F]].
  assert (U : urlencode_items d = Ok t) by (unfold urlencode_items; rewrite E; cbn [bind]; rewrite T; reflexivity).
  destruct W as [<-|[<-|[<-|[]]]]; [unfold msg_ser, ser_instance|unfold link_ser, ser_instance|unfold claims_ser; cbn [bind]];
    change ((do x <- urlencode_items d ; Ok (VStr x)) = Ok (VStr t)); rewrite U; reflexivity.
Qed.
(** ** the serializers in to_dict and to_urlencoded *)
Lemma at_dict : forall c d n, serialize_at c d (u "dict") n = to_dict_v (VMsg c d).
Proof. intros c d n. rewrite to_dict_v_msg. destruct n; cbn [serialize_at]; unfold serialize; cbn [andb]; change (ueqb (u "dict") (u "urlencoded")) with false; change (ueqb (u "dict") (u "json")) with false; change (ueqb (u "dict") (u "dict")) with true; cbv iota; cbn [andb]; destruct (to_dict (cdef c) d); reflexivity. Qed.
Lemma msg_ser_at_dict : forall v n, msg_ser v (u "dict") n = msg_ser_dict to_dict_v v.
Proof.
  intros v n. unfold msg_ser, ser_instance. change (umem (u "dict") [u "urlencoded"; u "json"]) with false. change (ueqb (u "dict") (u "dict")) with true. cbv iota.
  destruct v; try reflexivity. rewrite root, at_dict. reflexivity.
Qed.
Lemma link_ser_at_dict : forall v n, link_ser v (u "dict") n = link_ser_dict to_dict_v v.
Proof.
  intros v n. unfold link_ser, ser_instance. change (umem (u "dict") [u "urlencoded"; u "json"]) with false. change (ueqb (u "dict") (u "dict")) with true. cbv iota.
  destruct v; try reflexivity. rewrite at_dict. reflexivity.
Qed.
Lemma mapM_same : forall A B (f g : A -> res B) l, (forall x, f x = g x) -> mapM f l = mapM g l.
Proof. intros A B f g l H. induction l as [|x l IH]; [reflexivity|]. cbn [mapM]. rewrite H, IH. reflexivity. Qed.
Lemma texts_ser : forall A (h : A -> ustr) l, mapM (fun x => msg_ser x (u "dict") 0) (map (fun x => VStr (h x)) l) = Ok (map (fun x => VStr (h x)) l).
Proof. intros A h l. induction l as [|x l IH]; [reflexivity|]. cbn [map mapM]. rewrite msg_ser_at_dict. cbn [msg_ser_dict bind]. rewrite IH. reflexivity. Qed.
Lemma used_in_to_dict : forall s v n r, public s v (u "dict") (S n) = Some r -> ser_dict to_dict_v s v = r.
Proof.
  intros s v n r H. destruct s; cbn [public] in H; try discriminate; injection H as <-; cbn [ser_dict].
  - destruct v; reflexivity.
  - unfold sp_sep_list_serializer. destruct v; try reflexivity; (destruct (sp_join _); reflexivity).
  - unfold json_serializer. destruct (json_dumps v); reflexivity.
  - rewrite msg_ser_at_dict. reflexivity.
  - unfold msg_ser_json. change (ueqb (u "dict") (u "dict")) with true. cbv iota zeta. destruct v; try reflexivity. rewrite at_dict. reflexivity.
  - unfold claims_ser. change (ueqb (u "dict") (u "urlencoded")) with false. change (ueqb (u "dict") (u "json")) with false. change (ueqb (u "dict") (u "dict")) with true.
    destruct v as [| | | | |[|x l]|d|c d]; try reflexivity; cbn [bind]; [|rewrite at_dict; reflexivity].
    destruct x; try reflexivity. rewrite at_dict. reflexivity.
  - unfold msg_list_ser. destruct v as [| | | |s|l|d|c d]; try reflexivity; cbn [py_iter bind].
    + rewrite (texts_ser N (fun c => [c])). reflexivity.
    + rewrite (mapM_same _ _ (fun x => msg_ser x (u "dict") 0) (msg_ser_dict to_dict_v) l (fun x => msg_ser_at_dict x 0)). destruct (mapM (msg_ser_dict to_dict_v) l); reflexivity.
    + rewrite (texts_ser _ (fun kv : ustr * value => fst kv)). reflexivity.
    + rewrite (texts_ser _ (fun kv : ustr * value => fst kv)). reflexivity.
  - unfold link_list_ser. destruct v as [| | | | |l|d|c d]; try reflexivity.
    + rewrite (mapM_same _ _ (fun x => link_ser x (u "dict") 0) (link_ser_dict to_dict_v) l (fun x => link_ser_at_dict x 0)). destruct (mapM (link_ser_dict to_dict_v) l); reflexivity.
    + rewrite link_ser_at_dict. reflexivity.
Qed.
Lemma used_in_query : forall s l t, ser_url_list s (VList l) = Ok t -> public s (VList l) (u "urlencoded") 0 = Some (Ok (VStr t)).
Proof.
  intros s l t H. destruct s; cbn [ser_url_list] in H; try discriminate; cbn [public].
  - unfold list_serializer. change (ueqb (u "urlencoded") (u "urlencoded")) with true. cbv iota. rewrite H. reflexivity.
  - unfold sp_sep_list_serializer. rewrite H. reflexivity.
  - unfold json_serializer. rewrite H. reflexivity.
Qed.
(** ** lists *)
Lemma list_formats : forall l v f g s, f <> u "urlencoded" -> g <> Furl -> (forall l', v <> VList l') ->
  list_serializer (VList l) f = Ok (VList l) /\ l_deser the_lib DeList (VList l) g = Ok (VList l) /\ list_serializer v f = Err EValueError /\
  list_serializer v (u "urlencoded") = Err EValueError /\ sp_sep_list_serializer (VStr s) = Ok (VStr s).
Proof.
  intros l v f g s F G N. split; [|split; [|split; [|split; [|reflexivity]]]].
  - unfold list_serializer. destruct (ueqb f (u "urlencoded")) eqn:E; [apply ueqb_eq in E; contradiction|reflexivity].
  - destruct g; try congruence; reflexivity.
  - destruct v; try reflexivity. destruct (N l0 eq_refl).
  - destruct v; try reflexivity. destruct (N l0 eq_refl).
Qed.
Lemma lists_of_messages : forall c ser k l f g, list_pair c ser k -> nested_format f g -> (forall d, In d l -> content canon (cd_param (cdef c)) d) ->
  exists v l', ser (VList (map (VMsg c) l)) f = Ok v /\ l_deser the_lib k v g = Ok (VList (map (VMsg c) l')) /\
    Forall2 (fun d' d => forall x, dget d' x = dget d x) l' l.
Proof.
  intros c ser k l f g P F H.
  assert (E : exists (one : value -> ustr -> nat -> res value) kk (rd : value -> sfmt -> res value), writer c one /\ reader c kk /\ (forall m, ser (VList m) f = (do r <- mapM (fun x => one x f 0%nat) m ; Ok (VList r))) /\
    (forall v, (forall m, v <> VList m) -> rd v g = l_deser the_lib kk v g) /\ (forall m, l_deser the_lib k (VList m) g = (do r <- mapM (fun x => rd x g) m ; Ok (VList r)))).
  { destruct P.
    - exists msg_ser, DeMsg, (de_msg (lib_n 11) C_Message). repeat split; try constructor. reflexivity.
    - exists link_ser, DeLink, (de_link (lib_n 11)). split; [constructor; reflexivity|]. split; [constructor; reflexivity|]. split; [reflexivity|]. split; [|reflexivity].
      intros v N. rewrite deser_at. cbn [deser_step]. destruct v; try reflexivity. destruct (N l0 eq_refl). }
  destruct E as (one & kk & rd & W & R & S1 & S2 & S3). rewrite S1.
  assert (X : exists vs l', mapM (fun x => one x f 0%nat) (map (VMsg c) l) = Ok vs /\ mapM (fun x => rd x g) vs = Ok (map (VMsg c) l') /\
    Forall2 (fun d' d => forall x, dget d' x = dget d x) l' l).
  { clear S1 S3. induction l as [|d l IH]; [exists [], []; repeat split; constructor|].
    destruct (written_read c one kk d f g 0%nat W R F (H d (or_introl eq_refl))) as (v & d' & A1 & A2 & A3); [destruct P; intros x []|].
    destruct IH as (vs & l' & B1 & B2 & B3); [intros d0 I; apply H; right; exact I|]. exists (v :: vs), (d' :: l'). cbn [map mapM]. rewrite A1. cbn [bind]. rewrite B1.
    split; [reflexivity|]. split; [|constructor; assumption]. rewrite S2, A2; [cbn [bind]; rewrite B2; reflexivity|].
    intros m ->. destruct F; [destruct (round_trip (cdef c) d (H d (or_introl eq_refl))) as (r & t & d2 & C1 & _ & C3 & _); [destruct P; intros x []|];
      destruct (writes_json c one d r t 0%nat W C1 C3) as [Q|Q]; rewrite Q in A1; discriminate|].
    destruct (round_trip (cdef c) d (H d (or_introl eq_refl))) as (r & t & d2 & C1 & _ & C3 & _); [destruct P; intros x []|].
    rewrite (writes_dict c one d r 0%nat W C1) in A1. discriminate. }
  destruct X as (vs & l' & X1 & X2 & X3). rewrite X1. cbn [bind]. exists (VList vs), l'. split; [reflexivity|]. split; [|exact X3]. rewrite S3, X2. reflexivity.
Qed.
(** ** what is no message of the class *)
Lemma not_instances : forall lev v, (forall d, v <> VDict d) -> (forall s, v <> VStr s) ->
  ((forall c d, v <> VMsg c d) -> msg_ser v (u "dict") lev = Err EMessageException /\ forall f, In f [u "json"; u "urlencoded"] -> msg_ser v f lev = Ok v) /\
  ((forall c d, v = VMsg c d -> subclass c C_oidc_Link = false) -> link_ser v (u "dict") lev = Err EMessageException /\ forall f, In f [u "json"; u "urlencoded"] -> link_ser v f lev = Ok v) /\
  ((forall c d, v <> VMsg c d) -> msg_ser_json v (u "dict") lev = Err EMessageException).
Proof.
  intros lev v H1 H2. split; [|split].
  - intro H3. split; [rewrite msg_ser_at_dict; destruct v; try reflexivity; exfalso; [eapply H2|eapply H1|eapply H3]; reflexivity|].
    intros f F. unfold msg_ser, ser_instance. replace (umem f [u "urlencoded"; u "json"]) with true by (destruct F as [<-|[<-|[]]]; reflexivity).
    destruct v; try reflexivity; exfalso; [eapply H1|eapply H3]; reflexivity.
  - intro H3. split; [rewrite link_ser_at_dict; destruct v; try reflexivity; [exfalso; eapply H2|exfalso; eapply H1|cbn [link_ser_dict]; rewrite (H3 c d eq_refl)]; reflexivity|].
    intros f F. unfold link_ser, ser_instance. replace (umem f [u "urlencoded"; u "json"]) with true by (destruct F as [<-|[<-|[]]]; reflexivity).
    destruct v; try reflexivity; [exfalso; eapply H1; reflexivity|rewrite (H3 c d eq_refl); reflexivity].
  - intro H3. unfold msg_ser_json. replace (match lev with O => u "dict" | S _ => u "dict" end) with (u "dict") by (destruct lev; reflexivity).
    change (ueqb (u "dict") (u "dict")) with true. cbv iota zeta. destruct v; try reflexivity; exfalso; [eapply H1|eapply H3]; reflexivity.
Qed.
(** ** any *)
Lemma any_one_way : forall d f lev w g, any_ser (VDict d) f lev = Ok w -> any_deser w g = Err EValueError.
Proof. intros d f lev w g H. cbn [any_ser] in H. unfold json_serializer in H. destruct (json_dumps (VDict d)); [|discriminate]. injection H as <-. reflexivity. Qed.
Lemma any_written : forall f lev,
  (forall v, (exists s, v = VStr s) \/ (exists z, v = VInt z) \/ (exists b, v = VBool b) -> any_ser v f lev = Ok v) /\
  any_ser VNone f lev = Err EValueError /\
  (forall d, json_value (VDict d) -> exists t, any_ser (VDict d) f lev = Ok (VStr t) /\ json_loads t = Ok (VDict d)) /\
  (forall l, any_ser (VList l) f lev = msg_list_ser (VList l) (u "urlencoded")).
Proof.
  intros f lev. split; [intros v [[s ->]|[[z ->]|[b ->]]]; reflexivity|]. split; [reflexivity|]. split; [|reflexivity].
  intros d J. destruct (json_codec _ J) as (t & J1 & _ & J2). exists t. split; [|exact J2]. unfold any_ser, json_serializer. rewrite J1. reflexivity.
Qed.
Lemma any_dictionary : forall d g, ~ In (u "self") (map fst d) -> ~ In (u "set_defaults") (map fst d) ->
  any_deser (VDict d) g = (do x <- ret_msg (from_dict (cdef C_Message) [] (VDict d)) ; Ok (VMsg C_Message x)).
Proof.
  intros d g H1 H2. cbn [any_deser]. unfold construct, construct_gen.
  replace (dhas d (u "self")) with false by (symmetry; apply dhas_false, dget_None; exact H1).
  assert (N : dget d (u "set_defaults") = None) by (apply dget_None; exact H2). rewrite N. cbv zeta. change (cd_default (cdef C_Message)) with (@nil (ustr * value)).
  replace (ddel d (u "set_defaults")) with d; [reflexivity|]. clear N H1. unfold ddel. induction d as [|[k v] d IH]; [reflexivity|]. cbn [filter map fst] in *.
  destruct (ueqb (u "set_defaults") k) eqn:E; [apply ueqb_eq in E; subst k; destruct H2; left; reflexivity|]. cbn [negb]. rewrite <- IH; [reflexivity|]. intro I. apply H2. right. exact I.
Qed.
Lemma any_list : forall l g, g <> Furl -> (forall d, In d l -> json_value (VDict d) /\ ~ In (u "self") (map fst d) /\ ~ In (u "set_defaults") (map fst d)) ->
  forall ms, mapM (fun d => any_deser (VDict d) g) l = Ok ms -> any_deser (VList (map VDict l)) g = Ok (VList ms).
Proof.
  intros l g G H ms M. cbn [any_deser].
  assert (X : mapM (fun x => l_deser the_lib DeMsg x g) (map VDict l) = Ok ms).
  { revert ms M. induction l as [|d l IH]; intros ms M; [exact M|]. cbn [map mapM] in *. destruct (H d (or_introl eq_refl)) as (J & H1 & H2).
    rewrite (any_dictionary d g H1 H2) in M. destruct (from_dict (cdef C_Message) [] (VDict d)) as [x [[]|e]] eqn:F; [|discriminate]. cbn [ret_msg bind] in M.
    destruct (mapM (fun d => any_deser (VDict d) g) l) as [ms'|] eqn:E; [|discriminate]. injection M as <-.
    destruct (json_codec _ J) as (t & J1 & _ & J2).
    assert (T : deser_cls the_lib C_Message (VStr t) Fjson = Ok (VMsg C_Message x)) by (apply from_json_val; unfold from_json, from_json_gen; rewrite J2; exact F).
    rewrite (read_dictionary C_Message DeMsg d t (VMsg C_Message x) g (RMsg _ eq_refl) J1 T (from_dict_val C_Message d x F) G). cbn [bind].
    rewrite (IH (fun d0 I => H d0 (or_intror I)) ms' eq_refl). reflexivity. }
  rewrite X. reflexivity.
Qed.
