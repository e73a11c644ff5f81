(** Property theorems: learned models, their storage and their versions (C86). *)
From Coq Require Import String Reals.
From Verif Require Import PyBase PyFacts PyMore PyRange Trainer TrainerProofs Spectral TransformProofs Preproc PreprocProofs Axis AxisProofs Learned LearnedProofs LearnedProofs2 LearnedProofs3.
From Verif Require Pipeline.
Import ListNotations.
Local Open Scope string_scope.

(** C86: gathering, Op and versions *)
Theorem C86_gather_rounds :
  forall (D : Type) (ks : list string),
  NoDup ks ->
  forall (blocks : list (kw D)) (rest : kw D),
  (forall p : string * D, In p (List.concat blocks ++ rest) -> In (fst p) ks) ->
  Forall (complete_round ks) blocks ->
  ~ covers ks rest ->
  exists ds : list (kw D),
    Forall2
      (fun b d : kw D =>
       NoDup (keys d) /\
       (forall k : string, In k (keys d) <-> In k ks) /\
       (forall k : string, In k ks -> lookup k d = last_of k b /\ last_of k b <> None)) blocks ds /\
    net_run (Datatypes.length ks) (List.concat blocks ++ rest) =
    (flat_map (fun p : kw D * kw D => repeat None (Datatypes.length (fst p) - 1) ++ [Some (snd p)])
       (combine blocks ds) ++ repeat None (Datatypes.length rest))%list.
Proof. exact (@gather_rounds). Qed.
Print Assumptions C86_gather_rounds.
Theorem C86_gather_splits :
  forall (D : Type) (ks : list string),
  ks <> [] ->
  forall evs : kw D,
  exists (blocks : list (kw D)) (rest : kw D),
    evs = (List.concat blocks ++ rest)%list /\
    Forall (complete_round ks) blocks /\ ~ covers ks rest.
Proof. exact (@gather_splits). Qed.
Print Assumptions C86_gather_splits.
Theorem C86_one_at_once :
  forall (D : Type) (is_dict : D -> option nat) (needs : nat) (evs : list D),
  one_feed is_dict needs evs =
  map
    (fun d : D =>
     match is_dict d with
     | Some n => if (n =? needs)%nat then Some d else None
     | None => Some d
     end) evs.
Proof. exact (@one_at_once). Qed.
Print Assumptions C86_one_at_once.
Theorem C86_gather_example :
  let evs := [("data", 1); ("data", 2); ("labels", 3); ("labels", 4); ("data", 5); ("data", 6)] in
  net_run 2 evs =
  [None; None; Some [("data", 2); ("labels", 3)]; None; Some [("labels", 4); ("data", 5)]; None] /\
  complete_round ["data"; "labels"] [("data", 1); ("data", 2); ("labels", 3)] /\
  complete_round ["data"; "labels"] [("labels", 4); ("data", 5)] /\
  ~ covers ["data"; "labels"] [("data", 6)].
Proof. exact (@gather_example). Qed.
Print Assumptions C86_gather_example.
Theorem C86_op_call :
  forall (V : Type) (o : op V) (arg : V) (k : kw V),
  NoDup (keys (o_kwargs o)) ->
  NoDup (keys k) ->
  exists m : kw V,
    NoDup (keys m) /\
    (forall x : string,
     lookup x m = match lookup x (o_kwargs o) with
                  | Some v => Some v
                  | None => lookup x k
                  end) /\
    (acceptable (o_code o) (keys m) -> call_op o arg k = c_body (o_code o) arg m) /\
    (~ acceptable (o_code o) (keys m) -> call_op o arg k = Raise TypeError).
Proof. exact (@op_call). Qed.
Print Assumptions C86_op_call.
Theorem C86_default_lost_refuted :
  forall (V : Type) (o : op V) (arg : V) (k : kw V) (p : string),
  NoDup (keys (o_kwargs o)) ->
  In p (c_params (o_code o)) ->
  ~ In p (keys k) -> ~ In p (keys (o_kwargs o)) -> call_op o arg k = Raise TypeError.
Proof. exact (@default_lost_refuted). Qed.
Print Assumptions C86_default_lost_refuted.
Theorem C86_closure_refuted :
  forall (V : Type) (o : op V) (arg : V) (k : kw V),
  c_free (o_code o) = true -> call_op o arg k = Raise TypeError.
Proof. exact (@closure_refuted). Qed.
Print Assumptions C86_closure_refuted.
Theorem C86_no_data_refuted :
  forall (V : Type) (o : op V) (arg : V) (k : kw V),
  c_data (o_code o) = false -> call_op o arg k = Raise TypeError.
Proof. exact (@no_data_refuted). Qed.
Print Assumptions C86_no_data_refuted.
Theorem C86_op_attributes :
  forall (V : Type) (o : op V) (k : string),
  k <> "_kwargs" ->
  op_attr o k =
  match lookup k (o_kwargs o) with
  | Some v => Ok v
  | None => Raise AttributeError
  end.
Proof. exact (@op_attributes). Qed.
Print Assumptions C86_op_attributes.
Theorem C86_version_value :
  forall (V : Type) (look : V -> hashed) (md5 : string -> string) (c : code V) (k : kw V),
  Forall (hashable look) (map snd k) ->
  op_version look md5 c k =
  Ok (md5 (c_bytes c ++ String.concat "" (map (fun p : string * V => contents look (snd p)) k))).
Proof. exact (@version_value). Qed.
Print Assumptions C86_version_value.
Theorem C86_version_agrees :
  forall (V : Type) (look : V -> hashed) (md5 : string -> string) (c c' : code V) 
    (k k' : kw V) (v v' : string),
  Forall (hashable look) (map snd k) ->
  Forall (hashable look) (map snd k') ->
  op_version look md5 c k = Ok v ->
  op_version look md5 c' k' = Ok v' ->
  let a := c_bytes c ++ String.concat "" (map (fun p : string * V => contents look (snd p)) k) in
  let b := c_bytes c' ++ String.concat "" (map (fun p : string * V => contents look (snd p)) k') in
  (md5 a = md5 b -> a = b) -> v = v' <-> a = b.
Proof. exact (@version_agrees). Qed.
Print Assumptions C86_version_agrees.
Theorem C86_str_version_refuted :
  forall (V : Type) (look : V -> hashed) (md5 : string -> string) (c : code V) 
    (k : kw V) (v : V) (s : string),
  In v (map snd k) -> look v = HVersionStr s -> make_op look md5 c k = Raise TypeError.
Proof. exact (@str_version_refuted). Qed.
Print Assumptions C86_str_version_refuted.
Theorem C86_make_op_ok :
  forall (V : Type) (look : V -> hashed) (md5 : string -> string) (c : code V) (k : kw V),
  Forall (hashable look) (map snd k) -> make_op look md5 c k = Ok {| o_code := c; o_kwargs := k |}.
Proof. exact (@make_op_ok). Qed.
Print Assumptions C86_make_op_ok.
Theorem C86_version_ignores_names_refuted :
  forall md5 : string -> string,
  let c :=
    {|
      c_data := true;
      c_params := ["a"; "b"];
      c_varkw := false;
      c_free := false;
      c_body :=
        fun (x : Z) (k : kw Z) =>
        match lookup "a" k with
        | Some a =>
            match lookup "b" k with
            | Some b => Ok (x + a - b)%Z
            | None => Raise KeyError
            end
        | None => Raise KeyError
        end;
      c_bytes := "code"
    |} in
  let look := fun z : Z => HBuffer (if (z =? 1)%Z then "1" else "2") in
  let o := {| o_code := c; o_kwargs := [("a", 1%Z); ("b", 2%Z)] |} in
  let o' := {| o_code := c; o_kwargs := [("b", 1%Z); ("a", 2%Z)] |} in
  make_op look md5 c (o_kwargs o) = Ok o /\
  make_op look md5 c (o_kwargs o') = Ok o' /\
  op_version look md5 c (o_kwargs o) = op_version look md5 c (o_kwargs o') /\
  call_op o 0%Z [] = Ok (-1)%Z /\ call_op o' 0%Z [] = Ok 1%Z.
Proof. exact (@version_ignores_names_refuted). Qed.
Print Assumptions C86_version_ignores_names_refuted.
Theorem C86_version_of_network_refuted :
  forall (V : Type) (look : V -> hashed) (md5 : string -> string) (c : code V) 
    (n n' : V) (a a' v v' : string),
  look n = HBuffer a ->
  look n' = HBuffer a' ->
  op_version look md5 c [("network", n)] = Ok v ->
  op_version look md5 c [("network", n')] = Ok v' ->
  (md5 (c_bytes c ++ a) = md5 (c_bytes c ++ a') -> a = a') -> v = v' <-> a = a'.
Proof. exact (@version_of_network_refuted). Qed.
Print Assumptions C86_version_of_network_refuted.
Theorem C86_pipeline_versions :
  forall (md5 : string -> string) (vs ws : list string),
  (forall s : string, In s (vs ++ ws) -> String.length s = 32) ->
  (pipeline_version md5 vs = pipeline_version md5 ws -> String.concat "" vs = String.concat "" ws) ->
  pipeline_version md5 vs = pipeline_version md5 ws <-> vs = ws.
Proof. exact (@pipeline_versions). Qed.
Print Assumptions C86_pipeline_versions.
Theorem C86_learned_versions :
  forall (md5 : string -> string) (vs : list string),
  (forall v : string, learned_version md5 (Some v) vs = v) /\
  learned_version md5 None vs = md5 (String.concat "" vs).
Proof. exact (@learned_versions). Qed.
Print Assumptions C86_learned_versions.
Theorem C86_learned_yields :
  forall (D K W : Type) (wrap : D -> option W) (astype : option (D -> D))
    (wrapper : option (D -> result D)) (ps : list (Pipeline.step D K)) 
    (chunk : D),
  let x := match astype with
           | Some f => f chunk
           | None => chunk
           end in
  match Pipeline.transform wrap ps x wrapper with
  | Ok r => learned_process wrap astype wrapper ps chunk = Ok (Pipeline.r_data r)
  | Raise e => learned_process wrap astype wrapper ps chunk = Raise e
  end.
Proof. exact (@learned_yields). Qed.
Print Assumptions C86_learned_yields.

(** C86: storing and applying networks *)
Theorem C86_extract_spec :
  forall (D : Type) (p : pushed D),
  match extract_data p with
  | Ok x => forall (path : list string) (d : D), xleaf x path d <-> leaf p path (Some d)
  | Raise e => e = AttributeError /\ (exists path : list string, leaf p path None)
  end /\ (forall path : list string, leaf p path None -> extract_data p = Raise AttributeError).
Proof. exact (@extract_spec). Qed.
Print Assumptions C86_extract_spec.
Theorem C86_init_arg_missing_refuted :
  forall (V W Cls : Type) (params : Cls -> list string) (p : presult V W Cls) 
    (n : net V W Cls) (rest : kw (held V W Cls)) (k : string),
  o_kwargs (p_op p) = ("network", HNet n) :: rest ->
  In k (params (n_cls n)) -> lookup k (n_dict n) = None -> getstate params p = Raise KeyError.
Proof. exact (@init_arg_missing_refuted). Qed.
Print Assumptions C86_init_arg_missing_refuted.
Theorem C86_stored_settings :
  forall (V W Cls : Type) (params : Cls -> list string)
    (construct : Cls -> list V -> result (net V W Cls)) (fits : kw W -> kw W -> bool)
    (p : presult V W Cls) (s : state V W Cls),
  getstate params p = Ok s ->
  (forall k : string, k <> "network" -> lookup k (s_op_kwargs s) = lookup k (o_kwargs (p_op p))) /\
  (forall (dict : kw unit) (p' : presult V W Cls),
   setstate construct fits s = Ok (dict, p') ->
   forall k : string,
   k <> "network" -> lookup k (o_kwargs (p_op p')) = lookup k (o_kwargs (p_op p))).
Proof. exact (@stored_settings). Qed.
Print Assumptions C86_stored_settings.
Theorem C86_stored_same :
  forall (V W Cls : Type) (params : Cls -> list string)
    (construct : Cls -> list V -> result (net V W Cls)) (fits : kw W -> kw W -> bool)
    (p : presult V W Cls) (n : net V W Cls) (rest : kw (held V W Cls)),
  faithful params construct fits n ->
  o_kwargs (p_op p) = ("network", HNet n) :: rest ->
  ~ In "network" (keys rest) ->
  ~ In "data" (keys rest) ->
  o_kwargs (p_inverse p) = [] ->
  exists (p' : presult V W Cls) (dict : kw unit),
    store_and_load params construct fits p = Ok (dict, p') /\
    p_op p' = p_op p /\
    p_inverse p' = p_inverse p /\
    p_name p' = p_name p /\
    o_code (p_inv_data p') = o_code (p_inv_data p) /\
    o_kwargs (p_inv_data p') = [("network", HNet n)] /\
    (forall (arg : held V W Cls) (k : kw (held V W Cls)),
     call_op (p_op p') arg k = call_op (p_op p) arg k) /\ read_data dict p' = Raise AttributeError.
Proof. exact (@stored_same). Qed.
Print Assumptions C86_stored_same.
Theorem C86_autoencoder_same :
  forall (V W Cls : Type) (params : Cls -> list string)
    (construct : Cls -> list V -> result (net V W Cls)) (fits : kw W -> kw W -> bool)
    (p : presult V W Cls) (n : net V W Cls),
  faithful params construct fits n ->
  o_kwargs (p_op p) = [("network", HNet n)] ->
  o_kwargs (p_inv_data p) = [("network", HNet n)] ->
  o_kwargs (p_inverse p) = [] ->
  exists (p' : presult V W Cls) (dict : kw unit),
    store_and_load params construct fits p = Ok (dict, p') /\
    p' =
    {|
      p_data := None;
      p_op := p_op p;
      p_inv_data := p_inv_data p;
      p_inverse := p_inverse p;
      p_name := p_name p
    |}.
Proof. exact (@autoencoder_same). Qed.
Print Assumptions C86_autoencoder_same.
Theorem C86_inverse_changes_refuted :
  forall (V W Cls : Type) (params : Cls -> list string)
    (construct : Cls -> list V -> result (net V W Cls)) (fits : kw W -> kw W -> bool)
    (p : presult V W Cls) (n : net V W Cls) (rest : kw (held V W Cls)) 
    (d : held V W Cls),
  faithful params construct fits n ->
  o_kwargs (p_op p) = ("network", HNet n) :: rest ->
  ~ In "network" (keys rest) ->
  ~ In "data" (keys rest) ->
  o_kwargs (p_inv_data p) = [] ->
  o_kwargs (p_inverse p) = [] ->
  c_data (o_code (p_inverse p)) = true ->
  c_free (o_code (p_inverse p)) = false ->
  c_params (o_code (p_inverse p)) = [] ->
  c_varkw (o_code (p_inverse p)) = false ->
  (forall (x : held V W Cls) (k : kw (held V W Cls)),
   c_body (o_code (p_inverse p)) x k = Raise NotImplementedError) ->
  exists (p' : presult V W Cls) (dict : kw unit),
    store_and_load params construct fits p = Ok (dict, p') /\
    call_op (p_inverse p) d (inv_kwargs (p_inv_data p)) = Raise NotImplementedError /\
    call_op (p_inverse p') d (inv_kwargs (p_inv_data p')) = Raise TypeError.
Proof. exact (@inverse_changes_refuted). Qed.
Print Assumptions C86_inverse_changes_refuted.
Theorem C86_restored_eval :
  forall (V W Cls : Type) (construct : Cls -> list V -> result (net V W Cls))
    (fits : kw W -> kw W -> bool) (s : state V W Cls) (dict : kw unit) 
    (p' : presult V W Cls),
  setstate construct fits s = Ok (dict, p') ->
  exists n : net V W Cls,
    op_attr (p_op p') "network" = Ok (HNet n) /\ n_training n = false /\ n_weights n = s_weights s.
Proof. exact (@restored_eval). Qed.
Print Assumptions C86_restored_eval.
Theorem C86_restored_misfit :
  forall (V W Cls : Type) (construct : Cls -> list V -> result (net V W Cls))
    (fits : kw W -> kw W -> bool) (s : state V W Cls) (m : net V W Cls),
  construct (s_cls s) (s_init_args s) = Ok m ->
  fits (n_weights m) (s_weights s) = false -> setstate construct fits s = Raise RuntimeError.
Proof. exact (@restored_misfit). Qed.
Print Assumptions C86_restored_misfit.
Theorem C86_no_fallback_refuted :
  forall (D : Type) (forward : D -> result D) (x : D),
  forward x = Raise RuntimeError -> try_forward false forward x = Raise AttributeError.
Proof. exact (@no_fallback_refuted). Qed.
Print Assumptions C86_no_fallback_refuted.
Theorem C86_fallback_python2 :
  forall (D : Type) (forward : D -> result D) (x : D),
  forward x = Raise RuntimeError -> try_forward true forward x = Ok None.
Proof. exact (@fallback_python2). Qed.
Print Assumptions C86_fallback_python2.
Theorem C86_forward_passes :
  forall (D : Type) (m : bool) (forward : D -> result D) (x y : D),
  forward x = Ok y -> try_forward m forward x = Ok (Some y).
Proof. exact (@forward_passes). Qed.
Print Assumptions C86_forward_passes.
Theorem C86_retry_deterministic :
  forall (A B : Type) (forward : list A -> result B) (m : bool) (inp : list A)
    (r r' : result (option B)), retry m forward inp r -> retry m forward inp r' -> r = r'.
Proof. exact (@retry_deterministic). Qed.
Print Assumptions C86_retry_deterministic.
Theorem C86_retry_python3_refuted :
  forall (A B : Type) (forward : list A -> result B) (inp : list A) (r : result (option B)),
  forward inp = Raise RuntimeError -> retry false forward inp r <-> r = Raise AttributeError.
Proof. exact (@retry_python3_refuted). Qed.
Print Assumptions C86_retry_python3_refuted.
Theorem C86_retry_refused :
  forall (A B : Type) (forward : list A -> result B) (m : bool) (inp : list A)
    (r : result (option B)),
  forward inp = Raise ValueError -> retry m forward inp r <-> r = Ok None.
Proof. exact (@retry_refused). Qed.
Print Assumptions C86_retry_refused.
Theorem C86_retry_python2 :
  forall (A B : Type) (forward : list A -> result B) (limit : nat) (inp : list A),
  (forall l : list A, limit < Datatypes.length l -> forward l = Raise RuntimeError) ->
  (forall l : list A, Datatypes.length l <= limit -> exists y : B, forward l = Ok y) ->
  exists (k : nat) (y : B),
    forward (firstn (Datatypes.length inp / 64 ^ k) inp) = Ok y /\
    retry true forward inp (Ok (Some y)) /\
    Datatypes.length inp / 64 ^ k <= limit /\
    (forall j : nat, j < k -> limit < Datatypes.length inp / 64 ^ j).
Proof. exact (@retry_python2). Qed.
Print Assumptions C86_retry_python2.
Theorem C86_retry_for_ever :
  forall (A B : Type) (forward : list A -> result B),
  (forall l : list A, forward l = Raise RuntimeError) ->
  forall (inp : list A) (r : result (option B)), ~ retry true forward inp r.
Proof. exact (@retry_for_ever). Qed.
Print Assumptions C86_retry_for_ever.
Theorem C86_network_agrees :
  forall (A B : Type) (net : list A -> list B) (chunksize : option Z) (batch : Z) (x : list A),
  (forall a b : list A, net (a ++ b)%list = (net a ++ net b)%list) ->
  (0 < batch)%Z ->
  (forall c : Z, chunksize = Some c -> (0 <= c)%Z) ->
  x <> [] ->
  network_passes_on net (fun l : list A => l) chunksize batch x = Ok (net x) /\
  network_op net chunksize batch x = Ok (net x).
Proof. exact (@network_agrees). Qed.
Print Assumptions C86_network_agrees.
Theorem C86_chunksize_not_kept_refuted :
  let net := fun rows : list Z => map (fun _ : Z => Zlen rows) rows in
  network_passes_on net (fun l : list Z => l) (Some 2%Z) 3 [0%Z; 0%Z; 0%Z; 0%Z] =
  Ok [2%Z; 2%Z; 2%Z; 2%Z] /\
  network_op net (Some 2%Z) 3 [0%Z; 0%Z; 0%Z; 0%Z] = Ok [3%Z; 3%Z; 3%Z; 1%Z].
Proof. exact (@chunksize_not_kept_refuted). Qed.
Print Assumptions C86_chunksize_not_kept_refuted.
Theorem C86_post_training_not_kept_refuted :
  network_passes_on (map (Z.add 1)) (map (Z.mul 2)) None 3 [1%Z; 2%Z] = Ok [3%Z; 5%Z] /\
  network_op (map (Z.add 1)) None 3 [1%Z; 2%Z] = Ok [2%Z; 3%Z].
Proof. exact (@post_training_not_kept_refuted). Qed.
Print Assumptions C86_post_training_not_kept_refuted.
Theorem C86_gan_passes_labels :
  forall (A B : Type) (gen disc : list A -> list B) (w : which) (x : list A),
  gan_passes_on gen disc w x = apply_network disc x (Some 128%Z) /\
  gan_op gen disc w x =
  apply_network match w with
                | Generator => gen
                | Discriminator => disc
                end x (Some 128%Z).
Proof. exact (@gan_passes_labels). Qed.
Print Assumptions C86_gan_passes_labels.
Theorem C86_gan_differs_refuted :
  gan_passes_on (map (Z.add 1)) (map (Z.mul 2)) Generator [5%Z] = Ok [10%Z] /\
  gan_op (map (Z.add 1)) (map (Z.mul 2)) Generator [5%Z] = Ok [6%Z].
Proof. exact (@gan_differs_refuted). Qed.
Print Assumptions C86_gan_differs_refuted.
Theorem C86_gan_choice :
  forall s : string,
  match which_of s with
  | Ok Generator => s = "generator"
  | Ok Discriminator => s = "discriminator"
  | Raise e => e = ValueError /\ s <> "generator" /\ s <> "discriminator"
  end.
Proof. exact (@gan_choice). Qed.
Print Assumptions C86_gan_choice.
Theorem C86_network_dims :
  forall (X : Type) (shape_of : X -> list nat) (a : awu) (r : X) (n m : nat) 
    (d0 : dim) (ds : list dim),
  well_formed shape_of a ->
  dims a = d0 :: ds ->
  shape_of r = [n; m] ->
  hd 0 (shape_of (data a)) = n ->
  net_dims shape_of (Units a) r = Ok (Units {| data := r; dims := [d0; DIdent] |}).
Proof. exact (@network_dims). Qed.
Print Assumptions C86_network_dims.
Theorem C86_network_dims_other :
  forall (X : Type) (shape_of : X -> list nat) (a : awu) (r : X),
  dims a <> [] -> Datatypes.length (shape_of r) <> 2 -> net_dims shape_of (Units a) r = Ok (Bare r).
Proof. exact (@network_dims_other). Qed.
Print Assumptions C86_network_dims_other.
Theorem C86_gan_result_dims :
  forall (X : Type) (shape_of : X -> list nat) (a : awu) (r : X) (ds : list dim) (d : dim),
  well_formed shape_of a ->
  dims a = (ds ++ [d])%list ->
  Datatypes.length (shape_of r) = Datatypes.length (dims a) ->
  firstn (Datatypes.length ds) (shape_of r) = firstn (Datatypes.length ds) (shape_of (data a)) ->
  gan_dims shape_of (Units a) r = Ok (Units {| data := r; dims := ds ++ [DIdent] |}).
Proof. exact (@gan_result_dims). Qed.
Print Assumptions C86_gan_result_dims.
Theorem C86_gan_dims_other :
  forall (X : Type) (shape_of : X -> list nat) (a : awu) (r : X),
  dims a <> [] ->
  Datatypes.length (shape_of r) <> Datatypes.length (dims a) ->
  gan_dims shape_of (Units a) r = Ok (Bare r).
Proof. exact (@gan_dims_other). Qed.
Print Assumptions C86_gan_dims_other.
Theorem C86_encoder_result_dims :
  forall (X : Type) (shape_of : X -> list nat) (a : awu) (r : X) (n : nat) 
    (sh : list nat) (d0 : dim) (ds : list dim),
  well_formed shape_of a ->
  dims a = d0 :: ds ->
  shape_of r = n :: sh ->
  hd 0 (shape_of (data a)) = n ->
  encoder_dims shape_of (Units a) r =
  Ok (Units {| data := r; dims := d0 :: repeat DIdent (Datatypes.length sh) |}).
Proof. exact (@encoder_result_dims). Qed.
Print Assumptions C86_encoder_result_dims.
Theorem C86_bare_results :
  forall (X : Type) (shape_of : X -> list nat) (x r : X),
  net_dims shape_of (Bare x) r = Ok (Bare r) /\
  gan_dims shape_of (Bare x) r = Ok (Bare r) /\ encoder_dims shape_of (Bare x) r = Ok (Bare r).
Proof. exact (@bare_results). Qed.
Print Assumptions C86_bare_results.

(** C86: scikit-learn nodes and graphs *)
Theorem C86_sk_rows :
  forall (n : Z) (tail : list Z) (a : ndarr),
  examples n tail a -> sk_flatten a = Ok ([n; prodZ tail], snd a).
Proof. exact (@sk_rows). Qed.
Print Assumptions C86_sk_rows.
Theorem C86_sk_unrows :
  forall (n : Z) (tail : list Z) (m : ndarr),
  (0 < n)%Z ->
  (forall k : Z, In k tail -> (0 < k)%Z) ->
  Zlen (snd m) = (n * prodZ tail)%Z -> reshape_to m ((-1)%Z :: tail) = Ok (n :: tail, snd m).
Proof. exact (@sk_unrows). Qed.
Print Assumptions C86_sk_unrows.
Theorem C86_sk_roundtrip :
  forall (n : Z) (tail : list Z) (train a : ndarr) (model model_inverse : ndarr -> result ndarr),
  examples n tail a ->
  (exists k : Z, fst train = k :: tail) ->
  (forall m : ndarr, (do r <- model m; model_inverse r) = Ok m) ->
  (do r <- sk_forward model a; sk_backward model_inverse (sk_shape train) r) = Ok a.
Proof. exact (@sk_roundtrip). Qed.
Print Assumptions C86_sk_roundtrip.
Theorem C86_sk_other_shape :
  forall (n : Z) (tail tail' : list Z) (train a : ndarr)
    (model model_inverse : ndarr -> result ndarr),
  examples n tail a ->
  (exists k : Z, fst train = k :: tail') ->
  (forall k : Z, In k tail' -> (0 < k)%Z) ->
  prodZ tail' = prodZ tail ->
  (forall m : ndarr, (do r <- model m; model_inverse r) = Ok m) ->
  (do r <- sk_forward model a; sk_backward model_inverse (sk_shape train) r) =
  Ok (n :: tail', snd a).
Proof. exact (@sk_other_shape). Qed.
Print Assumptions C86_sk_other_shape.
Theorem C86_sk_empty_refuted :
  forall (tail : list Z) (d : list R) (model : ndarr -> result ndarr),
  (forall k : Z, In k tail -> (0 < k)%Z) -> sk_forward model (0%Z :: tail, d) = Raise ValueError.
Proof. exact (@sk_empty_refuted). Qed.
Print Assumptions C86_sk_empty_refuted.
Theorem C86_components_roundtrip :
  forall (components : list (list R)) (w : nat) (mean row : list R),
  orthonormal components w ->
  Datatypes.length row = w ->
  centred_inverse components w mean (centred_transform components w mean row) = row /\
  (forall j : nat,
   j < w ->
   at_ (components_inverse components w (centred_transform components w mean row)) j =
   (at_ row j - at_ mean j)%R).
Proof. exact (@components_roundtrip). Qed.
Print Assumptions C86_components_roundtrip.
Theorem C86_components_lose_mean_refuted :
  orthonormal [[1%R]] 1 /\
  components_inverse [[1%R]] 1 (centred_transform [[1%R]] 1 [5%R] [7%R]) <> [7%R] /\
  centred_inverse [[1%R]] 1 [5%R] (centred_transform [[1%R]] 1 [5%R] [7%R]) = [7%R].
Proof. exact (@components_lose_mean_refuted). Qed.
Print Assumptions C86_components_lose_mean_refuted.
Theorem C86_one_root :
  forall features : kw bool,
  match single_root features with
  | Ok f =>
      exists before after : kw bool,
        features = (before ++ (f, true) :: after)%list /\
        (forall g : string * bool, In g (before ++ after) -> snd g = false)
  | Raise e => e = ValueError /\ Datatypes.length (filter snd features) <> 1
  end.
Proof. exact (@one_root). Qed.
Print Assumptions C86_one_root.
Theorem C86_loaded_network :
  forall (V : Type) (ops : list (op V)),
  match load_network true ops with
  | Ok n =>
      exists (before : list (op V)) (o : op V) (after : list (op V)),
        ops = (before ++ o :: after)%list /\
        lookup "network" (o_kwargs o) = Some n /\
        (forall p : op V, In p before -> lookup "network" (o_kwargs p) = None)
  | Raise e =>
      e = RuntimeError /\ (forall p : op V, In p ops -> lookup "network" (o_kwargs p) = None)
  end.
Proof. exact (@loaded_network). Qed.
Print Assumptions C86_loaded_network.
Theorem C86_no_stored_network :
  forall (V : Type) (ops : list (op V)), load_network false ops = Raise RuntimeError.
Proof. exact (@no_stored_network). Qed.
Print Assumptions C86_no_stored_network.
Theorem C86_model_hash_refuted :
  forall (md5 : string -> string) (text : string) (ps : list string),
  model_hash true md5 text ps = Raise TypeError.
Proof. exact (@model_hash_refuted). Qed.
Print Assumptions C86_model_hash_refuted.
Theorem C86_faithful_example :
  faithful ex_params ex_construct ex_fits ex_net.
Proof. exact (@faithful_example). Qed.
Print Assumptions C86_faithful_example.
Theorem C86_stored_example :
  exists (p' : presult nat (list Z) unit) (dict : kw unit),
    store_and_load ex_params ex_construct ex_fits ex_result = Ok (dict, p') /\
    p_op p' = p_op ex_result /\
    call_op (p_op p') (HVal 7) [] = Ok (HVal 1) /\
    call_op (p_inverse p') (HVal 7) (inv_kwargs (p_inv_data p')) = Raise TypeError /\
    read_data dict p' = Raise AttributeError.
Proof. exact (@stored_example). Qed.
Print Assumptions C86_stored_example.
Theorem C86_nested_example :
  getstate (fun _ : unit => ["encoder"])
    {|
      p_data := None;
      p_op :=
        {|
          o_code := ex_code ["network"] false (Ok (HVal 1)); o_kwargs := [("network", HNet ex_net)]
        |};
      p_inv_data := {| o_code := ex_code [] true (Ok (HVal 0)); o_kwargs := [] |};
      p_inverse := {| o_code := ex_code [] false (Raise NotImplementedError); o_kwargs := [] |};
      p_name := ""
    |} = Raise KeyError.
Proof. exact (@nested_example). Qed.
Print Assumptions C86_nested_example.
Theorem C86_retry_example :
  let forward :=
    fun l : list nat =>
    if (Datatypes.length l <=? 3)%nat then Ok (Datatypes.length l) else Raise RuntimeError in
  retry true forward (repeat 0 200) (Ok (Some 3)) /\
  retry false forward (repeat 0 200) (Raise AttributeError).
Proof. exact (@retry_example). Qed.
Print Assumptions C86_retry_example.
Theorem C86_examples_example :
  examples 2 [1%Z; 3%Z] ([2%Z; 1%Z; 3%Z], [1%R; 2%R; 3%R; 4%R; 5%R; 6%R]) /\
  sk_flatten ([2%Z; 1%Z; 3%Z], [1%R; 2%R; 3%R; 4%R; 5%R; 6%R]) =
  Ok ([2%Z; 3%Z], [1%R; 2%R; 3%R; 4%R; 5%R; 6%R]).
Proof. exact (@examples_example). Qed.
Print Assumptions C86_examples_example.
Theorem C86_graph_example :
  single_root [("a", false); ("b", true)] = Ok "b" /\
  single_root [("a", true); ("b", true)] = Raise ValueError /\
  load_network true
    [{| o_code := ex_code [] false (Ok (HVal 1)); o_kwargs := [] |}; p_op ex_result] =
  Ok (HNet ex_net).
Proof. exact (@graph_example). Qed.
Print Assumptions C86_graph_example.

