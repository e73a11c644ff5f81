(** Proofs about Archives.v: names, attributes and NSynth. *)
From Coq Require Import ZArith String Ascii Lia.
From Verif Require Import PyBase PyFacts PyMore Archives.
Local Open Scope string_scope.
Local Open Scope list_scope.

(** ** Specification *)
Section Spec.
  Context {B V : Type}.
  Definition attr (a : audio B V) (k : string) : option V := dict_get (o_attrs a) k.
  (** an attribute of a description: as given, or None for the five that always exist *)
  Definition attribute (none : V) (given : option V) (k : string) : option V :=
    match given with
    | Some v => Some v
    | None => if in_dec string_dec k ["samplerate"; "channels"; "licensing"; "description"; "tags"] then Some none else None
    end.
End Spec.
(** no slash, no dot *)
Definition without (c : ascii) (s : string) : Prop := ~ In c (list_ascii_of_string s).

(** ** Names *)
Lemma after_last_none c s : ~ In c s -> after_last c s = 0%nat.
Proof. induction s as [|x r IH]; [reflexivity|]. cbn [after_last In]. intros H. rewrite IH by tauto. destruct (Ascii.eqb_spec x c); [subst; tauto|reflexivity]. Qed.
Lemma after_last_at c a b : ~ In c b -> after_last c (a ++ c :: b) = S (List.length a).
Proof.
  intros H. induction a as [|x a IH].
  - cbn [List.app after_last List.length]. rewrite (after_last_none c b H), Ascii.eqb_refl. reflexivity.
  - cbn [List.app after_last List.length]. rewrite IH. reflexivity.
Qed.
Lemma los_app a b : list_ascii_of_string (a ++ b)%string = (list_ascii_of_string a ++ list_ascii_of_string b)%list.
Proof. induction a as [|c a IH]; [reflexivity|]. cbn. now rewrite IH. Qed.
Lemma basename_in dir file : ~ In slash file -> basename (dir ++ slash :: file) = file.
Proof. intros H. unfold basename. rewrite after_last_at by exact H. replace (S (List.length dir)) with (List.length dir + 1)%nat by lia. rewrite <- skipn_skipn', skipn_app, skipn_all, Nat.sub_diag. reflexivity. Qed.
Lemma basename_bare file : ~ In slash file -> basename file = file.
Proof. intros H. unfold basename. rewrite after_last_none by exact H. reflexivity. Qed.
Lemma stem_ext st ext : ~ In slash st -> ~ In slash ext -> ~ In dot ext -> Exists (fun c => c <> dot) st -> stem (st ++ dot :: ext) = st.
Proof.
  intros H1 H2 H3 H4. unfold stem. rewrite (after_last_none slash). 2:{ intros H. apply in_app_or in H. destruct H as [H|[H|H]]; [tauto|discriminate|tauto]. }
  rewrite (after_last_at dot st ext H3). cbn [Nat.ltb Nat.leb]. rewrite Nat.sub_0_r. cbn [skipn]. replace (S (List.length st) - 1)%nat with (List.length st) by lia. rewrite firstn_app, Nat.sub_diag, firstn_all. cbn [firstn]. rewrite app_nil_r.
  assert (E : existsb (fun c => negb (Ascii.eqb c dot)) st = true). { apply existsb_exists. apply Exists_exists in H4. destruct H4 as (c & Hc & N). exists c. split; [exact Hc|]. destruct (Ascii.eqb_spec c dot); [contradiction|reflexivity]. }
  rewrite E. reflexivity.
Qed.
Lemma stem_bare st : ~ In dot st -> stem st = st.
Proof. intros H. unfold stem. rewrite (after_last_none dot st H). rewrite (proj2 (Nat.ltb_ge _ _)) by lia. reflexivity. Qed.
(** a sound stored as dir/st.ext has the id st *)
Theorem name_id_ok dir st ext : without slash st -> without slash ext -> without dot ext -> Exists (fun c => c <> dot) (list_ascii_of_string st) ->
  name_id (dir ++ "/" ++ st ++ "." ++ ext)%string = st /\ name_id (st ++ "." ++ ext)%string = st.
Proof.
  unfold without. intros H1 H2 H3 H4. assert (S1 : ~ In slash (list_ascii_of_string st ++ dot :: list_ascii_of_string ext)) by (intros H; apply in_app_or in H; destruct H as [H|[H|H]]; [tauto|discriminate|tauto]).
  unfold name_id. rewrite !los_app. cbn [list_ascii_of_string List.app]. fold slash. fold dot. rewrite basename_in, basename_bare, stem_ext by assumption. rewrite string_of_list_ascii_of_string. auto.
Qed.
(** without an extension, the name; a name that begins with its only dot is all id *)
Theorem name_id_bare dir st : without slash st -> without dot st -> name_id (dir ++ "/" ++ st)%string = st /\ name_id (dir ++ "/." ++ st)%string = ("." ++ st)%string.
Proof.
  unfold without. intros H1 H2. unfold name_id. rewrite !los_app. cbn [list_ascii_of_string List.app]. fold slash. fold dot.
  rewrite !basename_in. 2:{ intros [H|H]; [discriminate|tauto]. } 2:exact H1. rewrite (stem_bare _ H2), string_of_list_ascii_of_string. split; [reflexivity|].
  unfold stem. rewrite (after_last_none slash) by (intros [H|H]; [discriminate|tauto]). pose proof (after_last_at dot [] (list_ascii_of_string st) H2) as E. cbn [List.app] in E. rewrite E. cbn. now rewrite string_of_list_ascii_of_string.
Qed.
Theorem json_name_ok name : json_name name = true <-> exists p, name = (p ++ ".json")%string.
Proof.
  unfold json_name. split.
  - intros H. apply andb_prop in H as [H1 H2]. apply Nat.leb_le in H1. apply String.eqb_eq in H2. exists (string_of_list_ascii (firstn (List.length (list_ascii_of_string name) - 5) (list_ascii_of_string name))).
    rewrite <- H2. rewrite <- (string_of_list_ascii_of_string name) at 1. set (l := list_ascii_of_string name) in *. rewrite <- (firstn_skipn (List.length l - 5) l) at 1. generalize (firstn (List.length l - 5) l) as a. induction a as [|c a IH]; [reflexivity|]. cbn. now rewrite IH.
  - intros (p & ->). rewrite los_app, app_length. cbn [list_ascii_of_string List.length]. rewrite Nat.add_sub. apply andb_true_intro. split; [apply Nat.leb_le; lia|]. rewrite skipn_app, skipn_all, Nat.sub_diag. reflexivity.
Qed.

(** ** AudioMetaData *)
Lemma mem_in k l : mem k l = true <-> In k l.
Proof. unfold mem. rewrite existsb_exists. split; [intros (x & Hx & E); apply String.eqb_eq in E; now subst|intros H; exists k; split; [exact H|apply String.eqb_refl]]. Qed.
Lemma mem_not k l : mem k l = false <-> ~ In k l.
Proof. rewrite <- mem_in. destruct (mem k l); split; congruence. Qed.
Section Attr.
  Context {V : Type}.
  Lemma get_app (d d' : dict V) k : dict_get (d ++ d') k = match dict_get d k with Some v => Some v | None => dict_get d' k end.
  Proof. induction d as [|[k' v] d IH]; [reflexivity|]. cbn [List.app dict_get]. destruct (String.eqb k' k); [reflexivity|exact IH]. Qed.
  Lemma get_none (d : dict V) k : dict_get d k = None <-> ~ In k (keys d).
  Proof. induction d as [|[k' v] d IH]; [cbn; tauto|]. cbn [dict_get keys map fst In]. destruct (String.eqb_spec k' k); [subst; split; [discriminate|tauto]|]. rewrite IH. unfold keys. tauto. Qed.
  Lemma get_some_in (d : dict V) k v : dict_get d k = Some v -> In k (keys d).
  Proof. intros H. destruct (in_dec string_dec k (keys d)) as [I|I]; [exact I|]. apply get_none in I. congruence. Qed.
  Lemma get_filter (p : string -> bool) (d : dict V) k : p k = true -> dict_get (filter (fun e => p (fst e)) d) k = dict_get d k.
  Proof. intros Hp. induction d as [|[k' v] d IH]; [reflexivity|]. cbn [filter fst dict_get]. destruct (String.eqb_spec k' k); [subst; rewrite Hp; cbn [dict_get]; rewrite String.eqb_refl; reflexivity|]. destruct (p k'); [|exact IH]. cbn [dict_get]. destruct (String.eqb_spec k' k); [contradiction|exact IH]. Qed.
  Lemma get_map_named (f : string -> V) l k : dict_get (map (fun k => (k, f k)) l) k = if mem k l then Some (f k) else None.
  Proof. induction l as [|x l IH]; [reflexivity|]. cbn [map dict_get mem existsb]. rewrite (String.eqb_sym k x). destruct (String.eqb_spec x k); [subst; reflexivity|exact IH]. Qed.
  Lemma keys_filter (p : string -> bool) (d : dict V) k : In k (keys (filter (fun e => p (fst e)) d)) -> In k (keys d).
  Proof. unfold keys. intros H. apply in_map_iff in H. destruct H as (e & <- & H). apply filter_In in H. apply in_map. tauto. Qed.
End Attr.

Section Meta.
  Context {B V : Type} (none : V).
  (** keyword arguments that are not already given, and that can be set *)
  Definition fits (explicit kwargs : dict V) : Prop :=
    (forall k, In k (keys kwargs) -> ~ In k (keys explicit) /\ k <> "self" /\ k <> "uri") /\ ~ In "request" (keys explicit) /\ ~ In "request" (keys kwargs).
  Theorem audio_metadata_ok (u : location B) explicit kwargs : fits explicit kwargs ->
    exists a, audio_metadata none u explicit kwargs = Ok a /\ o_uri a = u /\
      forall k, attr a k = attribute none (match dict_get explicit k with Some v => Some v | None => dict_get kwargs k end) k.
  Proof.
    intros (F & R1 & R2). unfold audio_metadata.
    assert (E : existsb (fun k => mem k ("self" :: "uri" :: keys explicit)) (keys kwargs) = false).
    { destruct (existsb _ (keys kwargs)) eqn:E; [|reflexivity]. apply existsb_exists in E. destruct E as (k & Hk & M). apply mem_in in M. destruct (F k Hk) as (N1 & N2 & N3). destruct M as [M|[M|M]]; [congruence|congruence|contradiction]. }
    rewrite E. assert (Q : mem "request" (keys (filter (fun p => negb (mem (fst p) named)) (explicit ++ kwargs))) = false).
    { apply mem_not. intros H. apply (keys_filter (fun k => negb (mem k named))) in H. unfold keys in H. rewrite map_app in H. apply in_app_or in H. tauto. }
    rewrite Q. eexists. split; [reflexivity|]. split; [reflexivity|]. intros k. unfold attr. cbn [o_attrs]. rewrite get_app, get_map_named. unfold attribute. change ["samplerate"; "channels"; "licensing"; "description"; "tags"] with named. rewrite <- get_app.
    destruct (mem k named) eqn:M.
    - apply mem_in in M. destruct (dict_get (explicit ++ kwargs) k); [reflexivity|]. destruct (in_dec string_dec k named); [reflexivity|contradiction].
    - rewrite (get_filter (fun x => negb (mem x named))) by now rewrite M. apply mem_not in M. destruct (dict_get (explicit ++ kwargs) k); [reflexivity|]. destruct (in_dec string_dec k named); [contradiction|reflexivity].
  Qed.
  (** an argument given twice *)
  Theorem audio_metadata_twice (u : location B) explicit kwargs k : In k (keys kwargs) -> In k ("self" :: "uri" :: keys explicit) -> audio_metadata none u explicit kwargs = Raise TypeError.
  Proof. intros H1 H2. unfold audio_metadata. assert (E : existsb (fun k => mem k ("self" :: "uri" :: keys explicit)) (keys kwargs) = true) by (apply existsb_exists; exists k; split; [exact H1|now apply mem_in]). now rewrite E. Qed.
  (** the property [request] cannot be set *)
  Theorem audio_metadata_request (u : location B) explicit kwargs : (forall k, In k (keys kwargs) -> ~ In k (keys explicit) /\ k <> "self" /\ k <> "uri") -> In "request" (keys kwargs) -> audio_metadata none u explicit kwargs = Raise AttributeError.
  Proof.
    intros F R. unfold audio_metadata.
    assert (E : existsb (fun k => mem k ("self" :: "uri" :: keys explicit)) (keys kwargs) = false).
    { destruct (existsb _ (keys kwargs)) eqn:E; [|reflexivity]. apply existsb_exists in E. destruct E as (k & Hk & M). apply mem_in in M. destruct (F k Hk) as (N1 & N2 & N3). destruct M as [M|[M|M]]; [congruence|congruence|contradiction]. }
    rewrite E. assert (Q : mem "request" (keys (filter (fun p => negb (mem (fst p) named)) (explicit ++ kwargs))) = true).
    { apply mem_in. unfold keys in *. apply in_map_iff in R. destruct R as (e & Ee & He). apply in_map_iff. exists e. split; [exact Ee|]. apply filter_In. split; [apply in_or_app; now right|]. now rewrite Ee. }
    now rewrite Q.
  Qed.
End Meta.

(** ** Generators *)
Lemma generate_all {A C} (f : A -> option (result C)) (P : A -> C -> Prop) l : (forall x, In x l -> f x = None \/ exists y, f x = Some (Ok y) /\ P x y) ->
  exists ys, generate f l = (ys, None) /\ Forall2 P (filter (fun x => match f x with None => false | _ => true end) l) ys.
Proof.
  induction l as [|x l IH]; intros H; [exists []; split; [reflexivity|constructor]|]. destruct IH as (ys & E & F); [intros y Hy; apply H; now right|]. cbn [generate filter].
  destruct (H x (or_introl eq_refl)) as [N|(y & Ey & Py)]; [rewrite N; exists ys; auto|]. rewrite Ey, E. exists (y :: ys). split; [reflexivity|now constructor].
Qed.
(** up to the first item that raises *)
Lemma generate_stop {A C} (f : A -> option (result C)) (P : A -> C -> Prop) l x r e : (forall x, In x l -> f x = None \/ exists y, f x = Some (Ok y) /\ P x y) -> f x = Some (Raise e) ->
  exists ys, generate f (l ++ x :: r) = (ys, Some e) /\ Forall2 P (filter (fun x => match f x with None => false | _ => true end) l) ys.
Proof.
  intros H Hx. induction l as [|z l IH]; [exists []; cbn [List.app generate]; rewrite Hx; split; [reflexivity|constructor]|]. destruct IH as (ys & E & F); [intros y Hy; apply H; now right|]. cbn [List.app generate filter].
  destruct (H z (or_introl eq_refl)) as [N|(y & Ey & Py)]; [rewrite N; exists ys; auto|]. rewrite Ey, E. exists (y :: ys). split; [reflexivity|now constructor].
Qed.

(** ** NSynth *)
Section NSynth.
  Context {B V : Type} (none : V) (text : string -> V) (load : list B -> result (string -> option (dict V))).
  Notation items := (nsynth none text load).
  (** the sounds of the archive: regular files, not JSON *)
  Definition sound (m : member B) : bool := match t_kind m with Regular _ => negb (json_name (t_name m)) | Special _ => false end.
  (** the description of a sound by an index of the archive *)
  Definition describes (index : string -> option (dict V)) (m : member B) (a : audio B V) : Prop :=
    exists d content, index (name_id (t_name m)) = Some d /\ t_kind m = Regular content /\
      o_uri a = Pre content ("https://magenta.tensorflow.org/datasets/nsynth/" ++ name_id (t_name m))%string /\
      forall k, attr a k = attribute none (if String.eqb k "web_url" then Some (text "https://magenta.tensorflow.org/datasets/nsynth") else dict_get d k) k.
  Definition usable (d : dict V) : Prop := forall k, In k ["self"; "uri"; "web_url"; "request"] -> ~ In k (keys d).

  Lemma usable_fits d : usable d -> fits [("web_url", text nsynth_web)] d.
  Proof.
    intros H. split; [|split; [cbn; intros [?|[]]; discriminate|apply H; cbn; tauto]]. intros k Hk. repeat split.
    - intros [<-|[]]. revert Hk. apply H. cbn. tauto.
    - intros ->. revert Hk. apply H. cbn. tauto.
    - intros ->. revert Hk. apply H. cbn. tauto.
  Qed.
  Lemma url_eq s : (nsynth_web ++ "/" ++ s)%string = ("https://magenta.tensorflow.org/datasets/nsynth/" ++ s)%string.
  Proof. reflexivity. Qed.
  Lemma item_skip j m : sound m = false -> nsynth_item none text j m = None.
  Proof. unfold sound, nsynth_item. destruct (t_kind m); destruct (json_name (t_name m)); cbn; congruence. Qed.
  Lemma item_some j m : sound m = true -> exists r, nsynth_item none text j m = Some r.
  Proof. unfold sound, nsynth_item. destruct (t_kind m); [|discriminate]. destruct (json_name (t_name m)); [discriminate|]. eauto. Qed.
  Lemma item_ok index m d : sound m = true -> index (name_id (t_name m)) = Some d -> usable d -> exists a, nsynth_item none text (Some index) m = Some (Ok a) /\ describes index m a.
  Proof.
    intros Hs Hd U. unfold sound in Hs. destruct (t_kind m) as [c|] eqn:K; [|discriminate]. unfold nsynth_item. rewrite K. destruct (json_name (t_name m)); [discriminate|].
    rewrite url_eq. unfold predownload. cbn [String.eqb String.append]. cbn [bind]. rewrite Hd. cbn [bind]. destruct (audio_metadata_ok none (Pre c ("https://magenta.tensorflow.org/datasets/nsynth/" ++ name_id (t_name m))) [("web_url", text nsynth_web)] d (usable_fits d U)) as (a & E & Eu & Ea).
    exists a. split; [f_equal; exact E|]. exists d, c. split; [exact Hd|]. split; [exact K|]. split; [exact Eu|]. intros k. rewrite Ea. f_equal. cbn [dict_get]. rewrite (String.eqb_sym "web_url" k). destruct (String.eqb k "web_url"); reflexivity.
  Qed.
  Lemma item_missing index m : sound m = true -> index (name_id (t_name m)) = None -> nsynth_item none text (Some index) m = Some (Raise KeyError).
  Proof. intros Hs Hd. unfold sound in Hs. destruct (t_kind m) as [c|] eqn:K; [|discriminate]. unfold nsynth_item. rewrite K. destruct (json_name (t_name m)); [discriminate|]. rewrite url_eq. unfold predownload. cbn [String.eqb String.append]. cbn [bind]. now rewrite Hd. Qed.
  Lemma item_none m : sound m = true -> nsynth_item none text None m = Some (Raise TypeError).
  Proof. intros Hs. unfold sound in Hs. destruct (t_kind m) as [c|] eqn:K; [|discriminate]. unfold nsynth_item. rewrite K. destruct (json_name (t_name m)); [discriminate|]. rewrite url_eq. unfold predownload. cbn [String.eqb String.append]. reflexivity. Qed.

  (** the last JSON file is the index; every one has to be readable *)
  Definition readable (ms : list (member B)) : Prop := forall m, In m ms -> json_name (t_name m) = true -> exists c j, extract m = Ok c /\ load c = Ok j.
  Lemma index_none ms j : (forall m, In m ms -> json_name (t_name m) = false) -> nsynth_index load ms j = Ok j.
  Proof. revert j. induction ms as [|m ms IH]; intros j H; [reflexivity|]. cbn [nsynth_index]. rewrite (H m (or_introl eq_refl)). apply IH. intros x Hx. apply H. now right. Qed.
  Lemma index_last before m after c j : readable before -> json_name (t_name m) = true -> extract m = Ok c -> load c = Ok j -> (forall x, In x after -> json_name (t_name x) = false) ->
    forall j0, nsynth_index load (before ++ m :: after) j0 = Ok (Some j).
  Proof.
    intros Rb Hj He Hl Ha. induction before as [|b before IH]; intros j0; cbn [List.app nsynth_index].
    - rewrite Hj, He. cbn [bind]. rewrite Hl. cbn [bind]. now apply index_none.
    - assert (Rb' : readable before) by (intros x Hx; apply Rb; now right). destruct (json_name (t_name b)) eqn:Jb; [|apply IH; exact Rb']. destruct (Rb b (or_introl eq_refl) Jb) as (c' & j' & E1 & E2). rewrite E1. cbn [bind]. rewrite E2. cbn [bind]. apply IH. exact Rb'.
  Qed.
  Lemma filter_sound j ms : filter (fun m => match nsynth_item none text j m with None => false | _ => true end) ms = filter sound ms.
  Proof. apply filter_ext. intros m. destruct (sound m) eqn:S; [destruct (item_some j m S) as [r ->]; reflexivity|now rewrite item_skip]. Qed.

  (** every sound, once, in the order of the archive *)
  Theorem nsynth_all before m after c index : readable before -> json_name (t_name m) = true -> extract m = Ok c -> load c = Ok index -> (forall x, In x after -> json_name (t_name x) = false) ->
    (forall x, In x (before ++ m :: after) -> sound x = true -> exists d, index (name_id (t_name x)) = Some d /\ usable d) ->
    exists outs, items (before ++ m :: after) = (outs, None) /\ Forall2 (describes index) (filter sound (before ++ m :: after)) outs.
  Proof.
    intros Rb Hj He Hl Ha Hd. unfold nsynth. rewrite (index_last before m after c index Rb Hj He Hl Ha). rewrite <- (filter_sound (Some index)). apply generate_all. intros x Hx. destruct (sound x) eqn:S; [right|left; now apply item_skip].
    destruct (Hd x Hx S) as (d & Ed & U). destruct (item_ok index x d S Ed U) as (a & E & D). eauto.
  Qed.
  (** a sound the index does not know ends the iteration, those before it are described *)
  Theorem nsynth_unknown before m after c index good bad rest : readable before -> json_name (t_name m) = true -> extract m = Ok c -> load c = Ok index -> (forall x, In x after -> json_name (t_name x) = false) ->
    before ++ m :: after = good ++ bad :: rest -> sound bad = true -> index (name_id (t_name bad)) = None ->
    (forall x, In x good -> sound x = true -> exists d, index (name_id (t_name x)) = Some d /\ usable d) ->
    exists outs, items (before ++ m :: after) = (outs, Some KeyError) /\ Forall2 (describes index) (filter sound good) outs.
  Proof.
    intros Rb Hj He Hl Ha Es Hb Ib Hd. unfold nsynth. rewrite (index_last before m after c index Rb Hj He Hl Ha), Es. rewrite <- (filter_sound (Some index)). apply generate_stop; [|now apply item_missing]. intros x Hx. destruct (sound x) eqn:S; [right|left; now apply item_skip].
    destruct (Hd x Hx S) as (d & Ed & U). destruct (item_ok index x d S Ed U) as (a & E & D). eauto.
  Qed.
  (** no JSON file: a TypeError at the first sound *)
  Theorem nsynth_no_index ms : (forall m, In m ms -> json_name (t_name m) = false) -> items ms = ([], if existsb sound ms then Some TypeError else None).
  Proof.
    intros H. unfold nsynth. rewrite (index_none ms None H). clear H. induction ms as [|m ms IH]; [reflexivity|]. cbn [generate existsb]. destruct (sound m) eqn:S; [rewrite (item_none m S); reflexivity|rewrite (item_skip None m S); exact IH].
  Qed.
  (** a JSON file that cannot be read ends everything before the first sound *)
  Theorem nsynth_unreadable before m after e : readable before -> json_name (t_name m) = true -> (do c <- extract m; load c) = Raise e -> items (before ++ m :: after) = ([], Some e).
  Proof.
    intros Rb Hj He. unfold nsynth. assert (E : forall j0, nsynth_index load (before ++ m :: after) j0 = Raise e); [|now rewrite E]. induction before as [|b before IH]; intros j0; cbn [List.app nsynth_index].
    - rewrite Hj. destruct (extract m) as [c|]; cbn [bind] in He |- *; [now rewrite He|congruence].
    - assert (Rb' : readable before) by (intros x Hx; apply Rb; now right). destruct (json_name (t_name b)) eqn:Jb; [|apply IH; exact Rb']. destruct (Rb b (or_introl eq_refl) Jb) as (c' & j' & E1 & E2). rewrite E1. cbn [bind]. rewrite E2. cbn [bind]. apply IH. exact Rb'.
  Qed.
  (** a directory whose name ends in .json ends everything before the first sound *)
  Theorem nsynth_json_directory before m after : readable before -> json_name (t_name m) = true -> t_kind m = Special None -> items (before ++ m :: after) = ([], Some AttributeError).
  Proof. intros Rb Hj Hk. apply nsynth_unreadable; [exact Rb|exact Hj|]. unfold extract. rewrite Hk. reflexivity. Qed.
  (** what can be read: files and links to files *)
  Theorem nsynth_content (m : member B) c : extract m = Ok c <-> t_kind m = Regular c \/ t_kind m = Special (Some c).
  Proof. unfold extract. destruct (t_kind m) as [x|[x|]]; (split; [intros H; try (injection H as <-); try discriminate H; auto|intros [H|H]; try discriminate H; try (injection H as <-); reflexivity]). Qed.
  (** two sounds of one name in two directories have one address *)
  Theorem nsynth_address index m m' a a' : describes index m a -> describes index m' a' -> name_id (t_name m) = name_id (t_name m') ->
    (forall k, attr a k = attr a' k) /\ exists c c' u, o_uri a = Pre c u /\ o_uri a' = Pre c' u.
  Proof.
    intros (d & c & E1 & _ & U1 & A1) (d' & c' & E2 & _ & U2 & A2) E. rewrite <- E in *. rewrite E1 in E2. injection E2 as <-. split; [intros k; now rewrite A1, A2|]. eauto 6.
  Qed.
End NSynth.
