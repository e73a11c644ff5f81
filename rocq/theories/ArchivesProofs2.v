(** Proofs about Archives.v: MusicNet, PhatDrumLoops, the Internet Archive, freesound. *)
From Coq Require Import ZArith String Ascii Lia.
From Verif Require Import PyBase PyFacts PyMore Archives ArchivesProofs.
Local Open Scope string_scope.
Local Open Scope list_scope.

Theorem predownload_ok {B} (content : list B) url : predownload content url = if string_dec url "" then Raise ValueError else Ok (Pre content url).
Proof. unfold predownload. destruct (String.eqb_spec url ""), (string_dec url ""); congruence. Qed.

(** ** MusicNet *)
Section MusicNet.
  Context {B V L : Type} (none : V) (num : Z -> V) (cell : V -> string) (parse : list L -> list (dict V)).
  Notation items binary := (musicnet none num cell binary parse).
  (** as the code reads it: never a sound, whatever the metadata and the files *)
  Theorem musicnet_nothing csv listdir wav : fst (items true csv listdir wav) = [] /\
    (csv <> [] -> snd (items true csv listdir wav) = Some OtherError) /\
    (forall f fs, csv = [] -> listdir = Ok (f :: fs) -> snd (items true csv listdir wav : list (audio B V) * option exn) = Some KeyError).
  Proof.
    unfold musicnet, dict_reader. destruct csv as [|l csv]; cbn [bind musicnet_rows].
    - destruct listdir as [[|f fs]|e]; cbn [bind generate musicnet_item fst snd]; (split; [reflexivity|]); (split; [congruence|]); intros f' fs' _ [=]; reflexivity.
    - split; [reflexivity|]. split; [reflexivity|]. discriminate.
  Qed.
  (** read as text it describes every file of the training set *)
  Definition row_of (rows : list (dict V)) (i : string) (d : dict V) : Prop := exists a b v, rows = a ++ d :: b /\ dict_get d "id" = Some v /\ cell v = i /\ forall r w, In r b -> dict_get r "id" = Some w -> cell w <> i.
  Lemma rows_ok rows : (forall r, In r rows -> dict_get r "id" <> None) -> forall m0, exists m, musicnet_rows cell rows m0 = Ok m /\ forall i d, row_of rows i d -> m i = Some d.
  Proof.
    intros H. assert (K : forall rows m0, (forall r, In r rows -> dict_get r "id" <> None) -> exists m, musicnet_rows cell rows m0 = Ok m /\ (forall i, (forall r w, In r rows -> dict_get r "id" = Some w -> cell w <> i) -> m i = m0 i) /\ forall i d, row_of rows i d -> m i = Some d).
    { clear. induction rows as [|r rows IH]; intros m0 H; [exists m0; split; [reflexivity|]; split; [reflexivity|]; intros i d (a & b & v & E & _); destruct a; discriminate|].
      cbn [musicnet_rows]. destruct (dict_get r "id") as [v|] eqn:Ev; [|destruct (H r (or_introl eq_refl) Ev)]. destruct (IH (fun k => if String.eqb k (cell v) then Some r else m0 k)) as (m & E & P & Q); [intros x Hx; apply H; now right|]. exists m. split; [exact E|]. split.
      - intros i Hi. rewrite P by (intros x w Hx; apply Hi; now right). destruct (String.eqb_spec i (cell v)) as [Ei|_]; [|reflexivity]. destruct (Hi r v (or_introl eq_refl) Ev). congruence.
      - intros i d (a & b & w & Ed & Ew & Ec & Hb). destruct a as [|r' a]; cbn [List.app] in Ed; injection Ed as -> Ed.
        + rewrite P by (rewrite Ed; exact Hb). rewrite Ev in Ew. injection Ew as ->. rewrite Ec, String.eqb_refl. reflexivity.
        + apply Q. exists a, b, w. auto. }
    intros m0. destruct (K rows m0 H) as (m & E & _ & Q). eauto.
  Qed.
  Definition file_id (filename : string) : string := string_of_list_ascii (stem (list_ascii_of_string filename)).
  Definition music (d : dict V) (content : list B) (filename : string) (a : audio B V) : Prop :=
    o_uri a = Pre content ("https://homes.cs.washington.edu/~thickstn/media/" ++ file_id filename)%string /\
    forall k, attr a k = attribute none (if String.eqb k "samplerate" then Some (num 44100) else dict_get d k) k.
  Theorem musicnet_text csv fs wav : let rows := match csv with [] => [] | _ => parse csv end in
    (forall r, In r rows -> dict_get r "id" <> None) ->
    (forall f, In f fs -> exists d content, row_of rows (file_id f) d /\ wav f = Ok content /\ (forall k, In k ["self"; "uri"; "samplerate"; "request"] -> ~ In k (keys d))) ->
    exists outs, items false csv (Ok fs) wav = (outs, None) /\ Forall2 (fun f a => exists d content, row_of rows (file_id f) d /\ wav f = Ok content /\ music d content f a) fs outs.
  Proof.
    intros rows Hr Hf. unfold musicnet. assert (Er : dict_reader false parse csv = Ok rows) by (unfold dict_reader, rows; destruct csv; reflexivity). rewrite Er. cbn [bind]. destruct (rows_ok rows Hr (fun _ => None)) as (m & Em & Hm). rewrite Em. cbn [bind].
    destruct (generate_all (fun f => Some (musicnet_item none num m wav f)) (fun f a => exists d content, row_of rows (file_id f) d /\ wav f = Ok content /\ music d content f a) fs) as (ys & E & F).
    - intros f Hin. right. destruct (Hf f Hin) as (d & content & Rd & Ew & U). unfold musicnet_item. fold (file_id f). rewrite (Hm _ _ Rd). cbn [bind]. rewrite Ew. cbn [bind]. unfold predownload. cbn [String.eqb String.append]. cbn [bind].
      destruct (audio_metadata_ok none (Pre content ("https://homes.cs.washington.edu/~thickstn/media/" ++ file_id f)) [("samplerate", num 44100)] d) as (a & Ea & Eu & Aa).
      { split; [|split; [cbn; intros [?|[]]; discriminate|apply U; cbn; tauto]]. intros k Hk. repeat split; [intros [<-|[]]|intros ->|intros ->]; revert Hk; apply U; cbn; tauto. }
      exists a. split; [f_equal; exact Ea|]. exists d, content. split; [exact Rd|]. split; [reflexivity|]. split; [exact Eu|]. intros k. rewrite Aa. f_equal. cbn [dict_get]. rewrite (String.eqb_sym "samplerate" k). destruct (String.eqb k "samplerate"); reflexivity.
    - exists ys. split; [exact E|]. cbn beta iota in F. assert (Ef : filter (fun _ : string => true) fs = fs) by (clear; induction fs as [|x l IH]; [reflexivity|cbn; now rewrite IH]). now rewrite Ef in F.
  Qed.
  (** a row without an id: nothing at all *)
  Theorem musicnet_no_id csv listdir wav row : csv <> [] -> In row (parse csv) -> dict_get row "id" = None -> (items false csv listdir wav : list (audio B V) * option exn) = ([], Some KeyError).
  Proof.
    intros Hc Hr Hn. unfold musicnet, dict_reader. destruct csv as [|l csv]; [congruence|]. cbn [bind]. assert (E : forall m, musicnet_rows cell (parse (l :: csv)) m = Raise KeyError); [|now rewrite E].
    induction (parse (l :: csv)) as [|r rows IH]; [destruct Hr|]. intros m. cbn [musicnet_rows]. destruct Hr as [->|Hr]; [now rewrite Hn|]. destruct (dict_get r "id"); [now apply IH|reflexivity].
  Qed.
End MusicNet.

(** ** PhatDrumLoops: never a sound *)
Theorem phat_nothing {B V} (none : V) text matches urljoin attrs (resp : result (list B)) :
  phat_drum_loops none text matches urljoin attrs resp = ([], Some (match resp with Ok _ => TypeError | Raise e => e end)).
Proof. unfold phat_drum_loops. destruct resp; reflexivity. Qed.

(** ** The Internet Archive *)
Section Dicts.
  Context {V : Type}.
  Lemma get_set (d : dict V) k v x : dict_get (dict_set d k v) x = if String.eqb k x then Some v else dict_get d x.
  Proof.
    induction d as [|[k' v'] d IH]; cbn [dict_set dict_get]; [reflexivity|]. destruct (String.eqb_spec k' k) as [->|N]; cbn [dict_get].
    - destruct (String.eqb_spec k x); reflexivity.
    - destruct (String.eqb_spec k' x) as [->|N']; [destruct (String.eqb_spec k x); [congruence|reflexivity]|exact IH].
  Qed.
  Lemma get_update (u : dict V) : forall d x, NoDup (keys u) -> dict_get (dict_update d u) x = match dict_get u x with Some v => Some v | None => dict_get d x end.
  Proof.
    unfold dict_update. induction u as [|[k v] u IH]; intros d x N; [reflexivity|]. cbn [fold_left fst snd keys map] in *. inversion N as [|? ? Nk N']; subst. rewrite IH by exact N'. cbn [dict_get]. rewrite get_set. destruct (String.eqb_spec k x) as [->|]; [|reflexivity]. apply get_none in Nk. now rewrite Nk.
  Qed.
End Dicts.
Section Archive.
  Context {B V : Type} (none : V) (text : string -> V) (cell : V -> string) (urljoin : string -> string) (format_filter : dict V -> result bool) (archive_id : string) (attrs : dict V).
  Notation loop := (ia_loop (B := B) none text cell urljoin format_filter archive_id attrs).
  (** the metadata of a file with what the user adds *)
  Definition added (d : dict V) : dict V := dict_update (dict_update d attrs) [("web_url", text ("https://archive.org//details/" ++ archive_id))].
  Lemma get_added d x : NoDup (keys attrs) -> dict_get (added d) x = if String.eqb x "web_url" then Some (text ("https://archive.org//details/" ++ archive_id)) else match dict_get attrs x with Some v => Some v | None => dict_get d x end.
  Proof. intros N. unfold added. rewrite get_update by (repeat constructor; intros []). cbn [dict_get]. rewrite (String.eqb_sym x "web_url"). destruct (String.eqb "web_url" x); [reflexivity|]. now rewrite get_update. Qed.
  (** the file whose metadata describe [k]: its own, or those of the original *)
  Inductive source_of (fs : files (V := V)) (k : string) (d : dict V) : dict V -> Prop :=
  | its_own v : dict_get d "source" = Some v -> cell v = "original" -> source_of fs k d d
  | the_original v o d' : dict_get d "source" = Some v -> cell v = "derivative" -> dict_get d "original" = Some o -> file_get fs ("/" ++ cell o)%string = Some d' -> source_of fs k d d'.
  Definition archived (fs : files (V := V)) (k : string) (a : audio B V) : Prop :=
    exists d d', file_get fs k = Some d /\ source_of fs k d d' /\ o_uri a = Req (urljoin ("/download/" ++ archive_id ++ k)%string) /\
      forall x, attr a x = attribute none (if String.eqb x "web_url" then Some (text ("https://archive.org//details/" ++ archive_id)) else match dict_get attrs x with Some v => Some v | None => dict_get d' x end) x.

  Lemma file_get_set (fs : files (V := V)) k d x : file_get (file_set fs k d) x = if String.eqb k x then match file_get fs x with Some _ => Some d | None => None end else file_get fs x.
  Proof.
    induction fs as [|[k' d'] fs IH]; cbn [file_set file_get]; [now destruct (String.eqb k x)|]. destruct (String.eqb_spec k' k) as [->|N]; cbn [file_get].
    - destruct (String.eqb_spec k x); reflexivity.
    - destruct (String.eqb_spec k' x) as [->|N']; [destruct (String.eqb_spec k x); [congruence|reflexivity]|exact IH].
  Qed.
  (** what has become of the files: the same, some with what the user adds *)
  Definition updated (fs fs' : files (V := V)) : Prop := forall k, file_get fs' k = file_get fs k \/ exists d d', file_get fs k = Some d /\ file_get fs' k = Some d' /\ forall x, dict_get d' x = dict_get (added d) x.

  Hypotheses (Na : NoDup (keys attrs)) (Hk : forall k, In k ["source"; "original"; "self"; "uri"; "request"] -> ~ In k (keys attrs))
    (Hf : forall d d', (forall x, dict_get d' x = dict_get (added d) x) -> format_filter d' = format_filter d).

  Lemma untouched d d' k : (forall x, dict_get d' x = dict_get (added d) x) -> In k ["source"; "original"; "self"; "uri"; "request"] -> dict_get d' k = dict_get d k.
  Proof.
    intros E Hin. rewrite E, get_added by exact Na. destruct (String.eqb_spec k "web_url") as [->|_]; [cbn in Hin; repeat (destruct Hin as [Hin|Hin]; [discriminate|]); destruct Hin|].
    rewrite (proj2 (get_none attrs k) (Hk k Hin)). reflexivity.
  Qed.
  Lemma get_in (d : dict V) k : In k (keys d) <-> dict_get d k <> None.
  Proof. rewrite get_none. destruct (in_dec string_dec k (keys d)); tauto. Qed.

  Lemma round_ok fs fs' k : updated fs fs' ->
    (exists d, file_get fs k = Some d /\ (format_filter d = Ok false \/ format_filter d = Ok true /\ exists d', source_of fs k d d' /\ (forall x, In x ["self"; "uri"; "request"] -> ~ In x (keys d')))) ->
    exists fs'' o, ia_round none text cell urljoin format_filter archive_id attrs k fs' = Ok (fs'', o) /\ updated fs fs'' /\
      (forall d, file_get fs k = Some d -> match format_filter d with Ok true => match o with Some a => archived fs k a | None => False end | _ => o = None end).
  Proof.
    intros U (d & Ed & Hd). assert (Cur : exists dc, file_get fs' k = Some dc /\ (forall x, In x ["source"; "original"; "self"; "uri"; "request"] -> dict_get dc x = dict_get d x) /\ format_filter dc = format_filter d).
    { destruct (U k) as [E|(d0 & dc & E0 & Ec & Eq)]; [exists d; rewrite E; auto|]. rewrite Ed in E0. injection E0 as <-. exists dc. split; [exact Ec|]. split; [intros x Hx; now apply untouched|now apply Hf]. }
    destruct Cur as (dc & Ec & Uc & Fc). unfold ia_round. rewrite Ec, Fc. destruct Hd as [F|[F (d' & Hs & Hu)]]; rewrite F; cbn [bind].
    - exists fs', None. split; [reflexivity|]. split; [exact U|]. intros d2 E2. rewrite Ed in E2. injection E2 as <-. now rewrite F.
    - assert (T : exists t dt, ia_target cell k dc fs' = Ok (Some t) /\ file_get fs t = Some d' /\ file_get fs' t = Some dt /\ (dt = d' \/ forall x, dict_get dt x = dict_get (added d') x)).
      { unfold ia_target. inversion Hs as [v Ev Cv|v o d'' Ev Cv Eo Eg]; subst; rewrite Uc by (cbn; tauto); rewrite Ev, Cv; cbn [String.eqb Ascii.eqb Bool.eqb].
        - exists k, dc. split; [reflexivity|]. split; [exact Ed|]. split; [exact Ec|]. destruct (U k) as [E|(d0 & dx & E0 & Ex & Eq)]; [left; congruence|right]. rewrite Ed in E0. injection E0 as <-. rewrite Ec in Ex. injection Ex as <-. exact Eq.
        - rewrite Uc by (cbn; tauto). rewrite Eo. destruct (U ("/" ++ cell o)%string) as [E|(d0 & dx & E0 & Ex & Eq)].
          + rewrite E, Eg. exists ("/" ++ cell o)%string, d'. split; [reflexivity|]. split; [exact Eg|]. split; [congruence|now left].
          + rewrite Ex. exists ("/" ++ cell o)%string, dx. rewrite Eg in E0. injection E0 as <-. auto. }
      destruct T as (t & dt & Et & Gt & Gt' & Q). rewrite Et. cbn [bind]. rewrite Gt'. fold (added dt).
      assert (Eq : forall x, dict_get (added dt) x = dict_get (added d') x). { intros x. destruct Q as [->|Q]; [reflexivity|]. rewrite (get_added dt) by exact Na. rewrite Q, get_added by exact Na. destruct (String.eqb x "web_url"); [reflexivity|]. destruct (dict_get attrs x); reflexivity. }
      assert (Fit : fits [] (added dt)).
      { assert (W : forall x, In x ["self"; "uri"; "request"] -> ~ In x (keys (added dt))). { intros x Hx Hin. apply get_in in Hin. apply Hin. rewrite (untouched d' (added dt) x Eq) by (cbn in Hx |- *; tauto). apply get_none. now apply Hu. }
        split; [|split; [intros []|apply W; cbn; tauto]]. intros x Hx. split; [intros []|]. split; intros ->; revert Hx; apply W; cbn; tauto. }
      destruct (audio_metadata_ok none (Req (urljoin ("/download/" ++ archive_id ++ k)%string) : location B) [] (added dt) Fit) as (a & Ea & Eu & Aa). rewrite Ea. cbn [bind]. eexists _, (Some a). split; [reflexivity|]. split.
      + intros x. rewrite file_get_set. destruct (String.eqb_spec t x) as [<-|]; [|apply U]. right. exists d', (added dt). rewrite Gt'. auto.
      + intros d2 E2. rewrite Ed in E2. injection E2 as <-. rewrite F. exists d, d'. split; [exact Ed|]. split; [exact Hs|]. split; [exact Eu|]. intros x. rewrite Aa. cbn [dict_get]. rewrite Eq, get_added by exact Na. reflexivity.
  Qed.
  Definition passes (fs : files (V := V)) (k : string) : bool := match file_get fs k with Some d => match format_filter d with Ok b => b | Raise _ => false end | None => false end.
  (** every sound the filter keeps, once, in order, with the metadata of its source and of the user *)
  Theorem archive_all fs : (forall k, In k (map fst fs) -> exists d, file_get fs k = Some d /\ (format_filter d = Ok false \/ format_filter d = Ok true /\ exists d', source_of fs k d d' /\ (forall x, In x ["self"; "uri"; "request"] -> ~ In x (keys d')))) ->
    exists outs, internet_archive (B := B) none text cell urljoin format_filter archive_id attrs (Ok fs) = (outs, None) /\ Forall2 (archived fs) (filter (passes fs) (map fst fs)) outs.
  Proof.
    intros H. unfold internet_archive. assert (G : forall ks fs', updated fs fs' -> (forall k, In k ks -> In k (map fst fs)) -> exists outs, loop ks fs' = (outs, None) /\ Forall2 (archived fs) (filter (passes fs) ks) outs).
    { induction ks as [|k ks IH]; intros fs' U Hin; [exists []; split; [reflexivity|constructor]|]. cbn [ia_loop filter]. pose proof (H k (Hin k (or_introl eq_refl))) as Hd. destruct (round_ok fs fs' k U Hd) as (fs'' & o & E & U' & P). rewrite E.
      destruct (IH fs'' U') as (outs & El & Fl); [intros x Hx; apply Hin; now right|]. destruct Hd as (d & Ed & Hd). specialize (P d Ed). unfold passes. rewrite Ed. destruct Hd as [F|[F _]]; rewrite F in P |- *.
      - subst o. exists outs. auto.
      - destruct o as [a|]; [|contradiction]. rewrite El. exists (a :: outs). split; [reflexivity|now constructor]. }
    apply G; [intros k; now left|auto].
  Qed.
End Archive.
(** the default filter is not disturbed unless the user adds a format *)
Lemma ogg_stable {V} (text : string -> V) cell archive_id attrs : NoDup (keys attrs) -> ~ In "format" (keys attrs) ->
  forall d d', (forall x, dict_get d' x = dict_get (added text archive_id attrs d) x) -> ogg_only cell d' = ogg_only cell d.
Proof. intros N H d d' E. unfold ogg_only. rewrite E, get_added by exact N. cbn [String.eqb Ascii.eqb Bool.eqb]. apply get_none in H. now rewrite H. Qed.
Theorem archive_unreadable {B V} none text cell urljoin ff i attrs e (r : list (audio B V) * option exn) : r = internet_archive none text cell urljoin ff i attrs (Raise e) ->
  r = ([], match e with ValueError => None | _ => Some e end).
Proof. intros ->. destruct e; reflexivity. Qed.
(** a file whose format is not told ends the run there *)
Theorem archive_no_format {B V} none text (cell : V -> string) urljoin i attrs k d fs (r : list (audio B V) * option exn) : r = internet_archive none text cell urljoin (ogg_only cell) i attrs (Ok ((k, d) :: fs)) ->
  dict_get d "format" = None -> r = ([], Some KeyError).
Proof. intros -> H. unfold internet_archive. cbn [map fst ia_loop]. unfold ia_round. cbn [file_get]. rewrite String.eqb_refl. unfold ogg_only. rewrite H. reflexivity. Qed.
(** refuted for a user who adds a source: what is added is written into the archive's own dict, and
    a file that describes two sounds loses its source at the first *)
Theorem archive_source_refuted {B} (urljoin : string -> string) i (s : string) : s <> "original" -> s <> "derivative" ->
  let a := [("source", "derivative"); ("original", "b.flac"); ("format", "Ogg Vorbis")] in
  let b := [("source", "original"); ("format", "Ogg Vorbis")] in
  let run attrs := internet_archive (B := B) "" (fun s => s) (fun s => s) urljoin (ogg_only (fun s => s)) i attrs (Ok [("/a.ogg", a); ("/b.flac", b)]) in
  (exists x y, run [] = ([x; y], None)) /\ exists x, run [("source", s)] = ([x], Some AttributeError).
Proof.
  intros N1 N2 a b run. unfold run, internet_archive, a, b. split; [eexists _, _; reflexivity|].
  cbn [map fst ia_loop ia_round file_get String.eqb Ascii.eqb Bool.eqb ogg_only dict_get bind ia_target String.append]. cbn [dict_update fold_left dict_set String.eqb Ascii.eqb Bool.eqb fst snd].
  eexists. cbn [audio_metadata keys map fst existsb mem String.eqb Ascii.eqb Bool.eqb orb named filter negb bind file_set List.app]. cbn [ia_round file_get String.eqb Ascii.eqb Bool.eqb dict_get bind ogg_only ia_target].
  destruct (String.eqb_spec s "original"); [contradiction|]. destruct (String.eqb_spec s "derivative"); [contradiction|]. cbn [bind]. reflexivity.
Qed.

(** ** freesound *)
Theorem freesound_ok {B V} (none : V) text cell data url username i : dict_get data "username" = Some username -> dict_get data "id" = Some i ->
  (forall k, In k ["samplerate"; "channels"; "license"; "description"; "tags"] -> dict_get data k <> None) ->
  exists a, freesound_item (B := B) none text cell data (Ok url) = Ok a /\ o_uri a = Req url /\
    attr a "web_url" = Some (text ("https://freesound.org/people/" ++ cell username ++ "/sounds/" ++ cell i ++ "/")%string) /\
    attr a "licensing" = dict_get data "license" /\
    (forall k, In k ["samplerate"; "channels"; "description"; "tags"] -> attr a k = dict_get data k) /\
    (forall k, ~ In k ["web_url"; "licensing"; "samplerate"; "channels"; "description"; "tags"] -> attr a k = None).
Proof.
  intros Eu Ei H. unfold freesound_item. cbn [bind]. rewrite Eu, Ei. cbn [bind].
  assert (G : forall k, In k ["samplerate"; "channels"; "license"; "description"; "tags"] -> exists v, dict_get data k = Some v) by (intros k Hin; specialize (H k Hin); destruct (dict_get data k); [eauto|congruence]).
  destruct (G "samplerate" ltac:(cbn; tauto)) as (v1 & E1). destruct (G "channels" ltac:(cbn; tauto)) as (v2 & E2). destruct (G "license" ltac:(cbn; tauto)) as (v3 & E3). destruct (G "description" ltac:(cbn; tauto)) as (v4 & E4). destruct (G "tags" ltac:(cbn; tauto)) as (v5 & E5).
  cbn [mapM fst snd]. rewrite E1, E2, E3, E4, E5. cbn [bind List.app]. destruct (audio_metadata_ok none (Req url : location B) [("samplerate", v1); ("channels", v2); ("licensing", v3); ("description", v4); ("tags", v5); ("web_url", text ("https://freesound.org/people/" ++ cell username ++ "/sounds/" ++ cell i ++ "/")%string)] []) as (a & Ea & El & Aa).
  { split; [intros k []|]. split; [|intros []]. cbn. intros Q. repeat (destruct Q as [Q|Q]; [discriminate|]). destruct Q. }
  exists a. split; [exact Ea|]. split; [exact El|]. split; [now rewrite Aa|]. split; [rewrite Aa; reflexivity|]. split.
  - intros k Hin. rewrite Aa. cbn in Hin. destruct Hin as [<-|[<-|[<-|[<-|[]]]]]; [rewrite E1|rewrite E2|rewrite E4|rewrite E5]; reflexivity.
  - intros k Hn. rewrite Aa. cbn [dict_get]. cbn in Hn.
    destruct (String.eqb_spec "samplerate" k); [tauto|]. destruct (String.eqb_spec "channels" k); [tauto|]. destruct (String.eqb_spec "licensing" k); [tauto|]. destruct (String.eqb_spec "description" k); [tauto|]. destruct (String.eqb_spec "tags" k); [tauto|]. destruct (String.eqb_spec "web_url" k); [tauto|].
    unfold attribute. destruct (in_dec string_dec k _) as [I|]; [|reflexivity]. cbn in I. tauto.
Qed.
Theorem freesound_missing {B V} (none : V) text cell data url k (r : result (audio B V)) : r = freesound_item none text cell data (Ok url) -> In k ["username"; "id"; "samplerate"; "channels"; "license"; "description"; "tags"] -> dict_get data k = None ->
  r = Raise KeyError.
Proof.
  intros -> Hin Hk. unfold freesound_item. cbn [bind]. destruct (dict_get data "username") eqn:E0; cbn [bind]; [|reflexivity]. destruct (dict_get data "id") eqn:E00; cbn [bind]; [|reflexivity]. cbn [mapM fst snd].
  destruct (dict_get data "samplerate") eqn:E1; cbn [bind]; [|reflexivity]. destruct (dict_get data "channels") eqn:E2; cbn [bind]; [|reflexivity]. destruct (dict_get data "license") eqn:E3; cbn [bind]; [|reflexivity]. destruct (dict_get data "description") eqn:E4; cbn [bind]; [|reflexivity]. destruct (dict_get data "tags") eqn:E5; cbn [bind]; [|reflexivity].
  cbn in Hin. repeat (destruct Hin as [<-|Hin]; [congruence|]). destruct Hin.
Qed.

(** ** cases *)
Definition demo_load (c : list ascii) : result (string -> option (dict string)) := Ok (fun k => if String.eqb k "bass_1-064" then Some [("pitch", "64"); ("tags", "dark")] else None).
Definition demo_tar : list (member ascii) :=
  [{| t_name := "nsynth-valid"; t_kind := Special None |}; {| t_name := "nsynth-valid/examples.json"; t_kind := Regular ["{"%char; "}"%char] |};
   {| t_name := "nsynth-valid/audio/bass_1-064.wav"; t_kind := Regular ["R"%char; "I"%char] |}].
Example nsynth_case : exists a, nsynth "None" (fun s => s) demo_load demo_tar = ([a], None) /\ o_uri a = Pre ["R"%char; "I"%char] "https://magenta.tensorflow.org/datasets/nsynth/bass_1-064" /\
  attr a "pitch" = Some "64" /\ attr a "tags" = Some "dark" /\ attr a "channels" = Some "None" /\ attr a "licence" = None /\ attr a "web_url" = Some "https://magenta.tensorflow.org/datasets/nsynth".
Proof. eexists. split; [vm_compute; reflexivity|]. repeat split. Qed.
Example nsynth_meets : exists before m after c index, demo_tar = before ++ m :: after /\ readable demo_load before /\ json_name (t_name m) = true /\ extract m = Ok c /\ demo_load c = Ok index /\ (forall x, In x after -> json_name (t_name x) = false) /\
  (forall x, In x demo_tar -> sound x = true -> exists d, index (name_id (t_name x)) = Some d /\ usable d) /\ exists x, In x demo_tar /\ sound x = true.
Proof.
  eexists [_], _, [_], _, _. split; [reflexivity|]. split. { intros m [<-|[]] H. discriminate. } split; [reflexivity|]. split; [reflexivity|]. split; [reflexivity|]. split. { intros x [<-|[]]. reflexivity. } split.
  - intros x [<-|[<-|[<-|[]]]] H; try discriminate. eexists. split; [vm_compute; reflexivity|]. intros k Hk Hin. cbn in Hk, Hin. destruct Hin as [<-|[<-|[]]]; repeat (destruct Hk as [Hk|Hk]; [discriminate|]); destruct Hk.
  - eexists. split; [right; right; left; reflexivity|reflexivity].
Qed.
Example musicnet_case : exists a, musicnet (B := ascii) "None" (fun _ => "44100") (fun s => s) false (fun _ : list unit => [[("id", "1727"); ("composer", "Schubert")]]) [tt] (Ok ["1727.wav"]) (fun _ => Ok ["R"%char]) = ([a], None) /\
  o_uri a = Pre ["R"%char] "https://homes.cs.washington.edu/~thickstn/media/1727" /\ attr a "composer" = Some "Schubert" /\ attr a "samplerate" = Some "44100".
Proof. eexists. split; [vm_compute; reflexivity|]. repeat split. Qed.
Example archive_meets : let a := [("source", "derivative"); ("original", "b.flac"); ("format", "Ogg Vorbis")] in let b := [("source", "original"); ("format", "Flac"); ("title", "B")] in let fs := [("/a.ogg", a); ("/b.flac", b)] in
  exists x, internet_archive (B := ascii) "None" (fun s => s) (fun s => s) (fun s => s) (ogg_only (fun s => s)) "jfk" [("genre", "Folk")] (Ok fs) = ([x], None) /\ archived "None" (fun s => s) (fun s => s) (fun s => s) "jfk" [("genre", "Folk")] fs "/a.ogg" x /\
  attr x "title" = Some "B" /\ attr x "genre" = Some "Folk" /\ attr x "format" = Some "Flac".
Proof.
  intros a b fs. assert (G : exists outs, internet_archive (B := ascii) "None" (fun s => s) (fun s => s) (fun s => s) (ogg_only (fun s => s)) "jfk" [("genre", "Folk")] (Ok fs) = (outs, None) /\ Forall2 (archived "None" (fun s => s) (fun s => s) (fun s => s) "jfk" [("genre", "Folk")] fs) (filter (passes (ogg_only (fun s => s)) fs) (map fst fs)) outs).
  { apply archive_all.
    - repeat constructor; intros [].
    - intros k Hk [E|[]]. cbn in E. subst k. cbn in Hk. repeat (destruct Hk as [Hk|Hk]; [discriminate|]). destruct Hk.
    - apply ogg_stable; [repeat constructor; intros []|]. intros [E|[]]. discriminate.
    - intros k [<-|[<-|[]]]; [exists a|exists b]; (split; [reflexivity|]).
      + right. split; [reflexivity|]. exists b. split; [eapply the_original; reflexivity|]. intros x Hx Hin. cbn in Hx, Hin. destruct Hin as [<-|[<-|[<-|[]]]]; repeat (destruct Hx as [Hx|Hx]; [discriminate|]); destruct Hx.
      + left. reflexivity. }
  destruct G as (outs & E & F). assert (Ef : filter (passes (ogg_only (fun s => s)) fs) (map fst fs) = ["/a.ogg"]) by reflexivity. rewrite Ef in F. inversion F as [|k x l l' Hx Hl]; subst. inversion Hl; subst. exists x. split; [exact E|]. split; [exact Hx|].
  destruct Hx as (d & d' & Ed & Hs & _ & Ha). injection Ed as <-. inversion Hs as [v Ev Cv|v o d2 Ev Cv Eo Eg]; subst; [discriminate Ev + (injection Ev as <-; discriminate)|]. injection Eo as <-. injection Eg as <-. rewrite !Ha. repeat split.
Qed.
