(** Proofs about MetaData and AudioMetaDataEncoder. *)
From Coq Require Import ZArith String Lia.
From Verif Require Import PyBase PyFacts PyMore PyRange Time Audio SoundNodes.
Local Open Scope string_scope.

Section MetaFacts.
  Context {file other : Type} (parsed : string -> string * string) (path_exists : string -> bool)
          (open_text : string -> result (Z * Z)) (open_file : file -> result (Z * Z)) (truthy : other -> bool).
  Notation metadata := (metadata parsed path_exists open_text open_file truthy).
  (** a description with nothing but what is given *)
  Definition only (u : uri file other) (rate channels : option Z) : meta file other :=
    {| m_uri := u; m_samplerate := rate; m_channels := channels; m_licensing := None; m_description := None; m_tags := None; m_extra := [] |}.
  Definition url_like (t : string) : Prop := fst (parsed t) <> "" /\ snd (parsed t) <> "".
  Definition lookup (k : string) (h : list (string * string)) : list string := map snd (filter (fun p => String.eqb (fst p) k) h).

  Lemma is_url_spec t : is_url parsed t = true <-> url_like t.
  Proof. unfold is_url, url_like. destruct (parsed t) as [s n]. cbn [fst snd]. rewrite andb_true_iff, !negb_true_iff, !String.eqb_neq. reflexivity. Qed.
  (** a description that is there already is left alone *)
  Theorem meta_kept (m : meta file other) : metadata (SMeta m) = Ok m.
  Proof. reflexivity. Qed.
  (** a URL becomes a request for all of it, from its first byte *)
  Theorem meta_url t : url_like t -> metadata (SUri (UText t)) = Ok (only (URequest {| q_url := t; q_headers := [("Range", "bytes=0-")] |}) None None).
  Proof. intros H. apply is_url_spec in H. cbn [SoundNodes.metadata]. rewrite H. reflexivity. Qed.
  (** a request keeps its address and its headers; one without 'range' gets exactly one *)
  Theorem meta_request q :
    exists h, metadata (SUri (URequest q)) = Ok (only (URequest {| q_url := q_url q; q_headers := (q_headers q ++ h)%list |}) None None) /\
      (lookup "range" (q_headers q) <> [] -> h = []) /\ (lookup "range" (q_headers q) = [] -> h = [("range", "bytes=0-")]).
  Proof.
    cbn [SoundNodes.metadata]. assert (E : has_header "range" (q_headers q) = match lookup "range" (q_headers q) with [] => false | _ => true end).
    { unfold has_header, lookup. induction (q_headers q) as [|[k v] h IH]; cbn [existsb filter map fst]; [reflexivity|]. destruct (String.eqb k "range"); [reflexivity|exact IH]. }
    rewrite E. destruct (lookup "range" (q_headers q)) eqn:El.
    - exists [("range", "bytes=0-")]. split; [reflexivity|]. split; [contradiction|reflexivity].
    - exists []. rewrite app_nil_r. split; [destruct q; reflexivity|]. split; [reflexivity|discriminate].
  Qed.
  (** but HTTP does not care about the case of a header's name, and zounds itself writes 'Range':
      a request made by MetaData, or by a user in that spelling, gets a second range, from 0 *)
  Theorem meta_range_refuted url from :
    metadata (SUri (URequest {| q_url := url; q_headers := [("Range", from)] |})) =
    Ok (only (URequest {| q_url := url; q_headers := [("Range", from); ("range", "bytes=0-")] |}) None None).
  Proof. reflexivity. Qed.
  (** a path that exists, or a file object: SoundFile's rate and channels; what SoundFile raises *)
  Theorem meta_local t : ~ url_like t -> path_exists t = true -> t <> "" ->
    (forall rate channels, open_text t = Ok (rate, channels) -> metadata (SUri (UText t)) = Ok (only (UText t) (Some rate) (Some channels))) /\
    (forall e, open_text t = Raise e -> metadata (SUri (UText t)) = Raise e).
  Proof.
    intros Hu Hp Ht. assert (E : is_url parsed t = false) by (destruct (is_url parsed t) eqn:E0; [apply is_url_spec in E0; contradiction|reflexivity]). cbn [SoundNodes.metadata]. rewrite E, Hp.
    split; [intros r c ->|intros e ->]; cbn [bind fst snd]; [|reflexivity]. unfold make_meta. destruct (String.eqb_spec t ""); [contradiction|reflexivity].
  Qed.
  Theorem meta_file f :
    (forall rate channels, open_file f = Ok (rate, channels) -> metadata (SUri (UFile f)) = Ok (only (UFile f) (Some rate) (Some channels))) /\
    (forall e, open_file f = Raise e -> metadata (SUri (UFile f)) = Raise e).
  Proof. split; [intros r c H|intros e H]; cbn [SoundNodes.metadata]; rewrite H; reflexivity. Qed.
  (** any other text or object stands for itself, unless it is empty *)
  Theorem meta_text t : ~ url_like t -> path_exists t = false -> metadata (SUri (UText t)) = if String.eqb t "" then Raise ValueError else Ok (only (UText t) None None).
  Proof. intros Hu Hp. assert (E : is_url parsed t = false) by (destruct (is_url parsed t) eqn:E0; [apply is_url_spec in E0; contradiction|reflexivity]). cbn [SoundNodes.metadata]. rewrite E, Hp. reflexivity. Qed.
  Theorem meta_other o : metadata (SUri (UOther o)) = if truthy o then Ok (only (UOther o) None None) else Raise ValueError.
  Proof. cbn [SoundNodes.metadata]. unfold make_meta. destruct (truthy o); reflexivity. Qed.

  (** what is stored for a description: every field under its name, the uri as its address *)
  Definition stored (u : jvalue) (m : meta file other) : list (string * jvalue) :=
    let text o := match o with None => JNull | Some s => JText s end in
    let int o := match o with None => JNull | Some z => JInt z end in
    ([("uri", u); ("samplerate", int (m_samplerate m)); ("channels", int (m_channels m)); ("licensing", text (m_licensing m)); ("description", text (m_description m)); ("tags", text (m_tags m))]
     ++ map (fun p => (fst p, JText (snd p))) (m_extra m))%list.
  Theorem meta_stored (m : meta file other) :
    (forall t, m_uri m = UText t -> encode_meta m = Ok (stored (JText t) m)) /\
    (forall q, m_uri m = URequest q -> encode_meta m = Ok (stored (JText (q_url q)) m)) /\
    (forall f, m_uri m = UFile f -> encode_meta m = Ok (stored JNull m)) /\
    (forall o, m_uri m = UOther o -> encode_meta m = Raise TypeError).
  Proof. unfold encode_meta. repeat split; intros ? ->; reflexivity. Qed.
  (** a url is stored as the url that was given *)
  Theorem meta_url_stored t : url_like t -> exists m, metadata (SUri (UText t)) = Ok m /\ encode_meta m = Ok (stored (JText t) m).
  Proof. intros H. eexists. split; [apply meta_url, H|reflexivity]. Qed.
  (** the same description with other extra attributes compares equal: equality reads six fields *)
  Theorem meta_same_fields eq_uri (a b : meta file other) :
    same_meta eq_uri a b = true <->
    eq_uri (m_uri a) (m_uri b) = true /\ m_samplerate a = m_samplerate b /\ m_channels a = m_channels b /\ m_licensing a = m_licensing b /\
    m_description a = m_description b /\ m_tags a = m_tags b.
  Proof.
    assert (T : forall x y : option string, match x, y with Some x, Some y => String.eqb x y | None, None => true | _, _ => false end = true <-> x = y).
    { intros [x|] [y|]; try (split; [discriminate|intros E; discriminate E]); [|tauto]. rewrite String.eqb_eq. split; [intros ->; reflexivity|intros E; injection E; auto]. }
    assert (I : forall x y : option Z, match x, y with Some x, Some y => Z.eqb x y | None, None => true | _, _ => false end = true <-> x = y).
    { intros [x|] [y|]; try (split; [discriminate|intros E; discriminate E]); [|tauto]. rewrite Z.eqb_eq. split; [intros ->; reflexivity|intros E; injection E; auto]. }
    unfold same_meta. rewrite !andb_true_iff, !T, !I. tauto.
  Qed.
  Theorem meta_extra_refuted eq_uri u extra : eq_uri u u = true -> same_meta eq_uri (only u None None) {| m_uri := u; m_samplerate := None; m_channels := None; m_licensing := None; m_description := None; m_tags := None; m_extra := extra |} = true.
  Proof. intros H. apply meta_same_fields. cbn. auto 10. Qed.
End MetaFacts.
Example meta_example :
  url_like (fun s => if String.eqb s "http://a/b" then ("http", "a") else ("", "")) "http://a/b" /\
  encode_meta (only (file := unit) (other := unit) (URequest {| q_url := "http://a/b"; q_headers := [] |}) (Some 44100%Z) None) =
    Ok [("uri", JText "http://a/b"); ("samplerate", JInt 44100); ("channels", JNull); ("licensing", JNull); ("description", JNull); ("tags", JNull)].
Proof. split; [split; discriminate|reflexivity]. Qed.
