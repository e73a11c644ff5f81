(** Model of the learned models of zounds/learn: Op and the versions of Op,
    Pipeline and Learned (preprocess.py, learn.py), the nodes that train
    networks and store them (pytorch_model.py, persistence/util.py), the nodes
    around scikit-learn models (sklearn_preprocessor.py), the learning graphs
    (graph.py) and model_hash (util.py).

    What a network, a scikit-learn model or a marshalled function computes is a
    parameter; the data flow around it is modelled. *)
From Coq Require Import String Reals.
From Verif Require Import PyBase PyFacts PyMore PyRange Trainer Spectral Preproc Axis.
From Verif Require Pipeline.
Local Open Scope string_scope.

(** ** Python dicts with string keys: an assignment keeps the place of a key *)
Notation kw V := (list (string * V)).
Fixpoint lookup {V} (k : string) (d : kw V) : option V :=
  match d with
  | [] => None
  | (k', v) :: d' => if k =? k' then Some v else lookup k d'
  end.
Fixpoint dict_set {V} (k : string) (v : V) (d : kw V) : kw V :=
  match d with
  | [] => [(k, v)]
  | (k', v') :: d' => if k =? k' then (k', v) :: d' else (k', v') :: dict_set k v d'
  end.
(** [d.update(e)] *)
Definition dict_update {V} (d e : kw V) : kw V := fold_left (fun d p => dict_set (fst p) (snd p) d) e d.
(** [del d[k]] *)
Fixpoint dict_del {V} (k : string) (d : kw V) : result (kw V) :=
  match d with
  | [] => Raise KeyError
  | (k', v) :: d' => if k =? k' then Ok d' else do r <- dict_del k d'; Ok ((k', v) :: r)
  end.
Definition keys {V} (d : kw V) : list string := map fst d.
Definition mem (k : string) (l : list string) : bool := existsb (String.eqb k) l.

(** ** The node that gathers one value per dependency *)
Section Gather.
  Context {D : Type}.
  (** pytorch_model.py:90, 115-119: [_cache] is None or a dict *)
  Definition net_enqueue (cache : option (kw D)) (k : string) (d : D) : option (kw D) :=
    Some (dict_set k d (match cache with None => [] | Some m => m end)).
  (** pytorch_model.py:121-132; [None] first is NotEnoughData *)
  Definition net_dequeue (needs : nat) (cache : option (kw D)) : option (kw D) * option (kw D) :=
    match cache with
    | None => (None, None)
    | Some m => if (List.length m =? needs)%nat then (Some m, None) else (None, Some m)
    end.
  (** one dequeue for every chunk pushed (the featureflow contract of SlidingNode.v):
      the values handed to [_process] *)
  Fixpoint net_feed (needs : nat) (cache : option (kw D)) (evs : list (string * D)) : list (option (kw D)) :=
    match evs with
    | [] => []
    | (k, d) :: evs' =>
        let '(out, cache') := net_dequeue needs (net_enqueue cache k d) in
        out :: net_feed needs cache' evs'
    end.
  Definition net_run (needs : nat) (evs : list (string * D)) : list (option (kw D)) :=
    net_feed needs (Some []) evs.

  (** pytorch_model.py:181, 213-214 and 247, 276-277 PyTorchGan and
      PyTorchAutoEncoder keep whatever was pushed last; [is_dict d] is the number
      of keys when the value is a dict *)
  Definition one_dequeue (is_dict : D -> option nat) (needs : nat) (cache : option D) : option D * option D :=
    match cache with
    | None => (None, None)
    | Some d =>
        match is_dict d with
        | Some n => if (n =? needs)%nat then (Some d, None) else (None, Some d)
        | None => (Some d, None)
        end
    end.
  Fixpoint one_feed (is_dict : D -> option nat) (needs : nat) (evs : list D) : list (option D) :=
    match evs with
    | [] => []
    | d :: evs' => fst (one_dequeue is_dict needs (Some d)) :: one_feed is_dict needs evs'
    end.
End Gather.

(** ** Op *)
Section Op.
  (** [V]: Python values.  A marshalled function keeps its code but loses the
      default values of its parameters, and its closure cannot be given:
      types.FunctionType(code, globals(), 'preprocess'). *)
  Context {V : Type}.
  Record code := {
    c_data : bool;                     (* does it take the data as a positional argument? *)
    c_params : list string;            (* its other parameters *)
    c_varkw : bool;                    (* does it take **kwargs? *)
    c_free : bool;                     (* does it refer to variables of an enclosing function? *)
    c_body : V -> kw V -> result V;
    c_bytes : string }.                (* marshal.dumps *)
  (** preprocess.py:12-20, 26-28 *)
  Record op := { o_code : code; o_kwargs : kw V }.
  (** calling the rebuilt function with a positional and keyword arguments *)
  Definition call_code (c : code) (arg : V) (k : kw V) : result V :=
    if c_free c then Raise TypeError
    else if negb (c_data c) then Raise TypeError
    else if existsb (fun p => negb (mem (fst p) (c_params c)) && negb (c_varkw c)) k then Raise TypeError
    else if forallb (fun p => mem p (keys k)) (c_params c) then c_body c arg k
    else Raise TypeError.
  (** preprocess.py:48-55 *)
  Definition call_op (o : op) (arg : V) (k : kw V) : result V :=
    call_code (o_code o) arg (dict_update k (o_kwargs o)).
  (** preprocess.py:140-143, 145-146 the default inversion data: the keyword
      arguments that the Op holds *)
  Definition inv_kwargs (o : op) : kw V := dict_update [] (o_kwargs o).
  (** preprocess.py:39-46 reading an attribute that is not in __dict__ *)
  Definition op_attr (o : op) (k : string) : result V :=
    if k =? "_kwargs" then Raise AttributeError
    else match lookup k (o_kwargs o) with Some v => Ok v | None => Raise AttributeError end.

  (** What hashing sees of a value (preprocess.py:32-36): its [version] if it has
      one, otherwise the buffer of [np.array(v)].  [h.update] of a str raises
      TypeError; numbers and arrays of numbers have their contents as a buffer,
      any other object becomes an array of one pointer, whose buffer is the
      address of the object. *)
  Inductive hashed := HVersionStr (s : string) | HVersionBytes (s : string) | HBuffer (s : string).
  Context (look : V -> hashed) (md5 : string -> string).
  Definition update_with (v : V) : result string :=
    match look v with
    | HVersionStr _ => Raise TypeError
    | HVersionBytes s => Ok s
    | HBuffer s => Ok s
    end.
  (** preprocess.py:30-37; md5 is fed piece by piece, which is feeding it the
      concatenation *)
  Fixpoint hash_values (vs : list V) : result string :=
    match vs with
    | [] => Ok ""
    | v :: vs' => do a <- update_with v; do b <- hash_values vs'; Ok (a ++ b)
    end.
  Definition op_version (c : code) (k : kw V) : result string :=
    do s <- hash_values (map snd k); Ok (md5 (c_bytes c ++ s)).
  (** preprocess.py:12-20 the constructor computes the version *)
  Definition make_op (c : code) (k : kw V) : result op :=
    do _ <- op_version c k; Ok {| o_code := c; o_kwargs := k |}.
  (** preprocess.py:669-672 the version of a pipeline of Ops with these versions *)
  Definition pipeline_version (versions : list string) : string := md5 (String.concat "" versions).
  (** learn.py:70-76 *)
  Definition learned_version (given : option string) (versions : list string) : string :=
    match given with Some v => v | None => pipeline_version versions end.
End Op.
Arguments code : clear implicits.
Arguments op : clear implicits.

(** learn.py:78-83 Learned._process: what the node yields for a chunk; [astype]
    converts to the wanted type when there is one *)
Definition learned_process {D K W} (wrap : D -> option W) (astype : option (D -> D))
    (wrapper : option (D -> result D)) (ps : list (Pipeline.step D K)) (chunk : D) : result D :=
  let chunk := match astype with Some f => f chunk | None => chunk end in
  do r <- Pipeline.transform wrap ps chunk wrapper; Ok (Pipeline.r_data r).

(** preprocess.py:163-169 _extract_data: a PreprocessResult stands for its data,
    a dict for the dict of its extracted values.  A restored PreprocessResult has no
    [data] (AttributeError). *)
Inductive pushed (D : Type) :=
| PRaw (d : D)
| PResult (d : option D)
| PDict (l : list (string * pushed D)).
Arguments PRaw {D}. Arguments PResult {D}. Arguments PDict {D}.
Inductive extracted (D : Type) := XRaw (d : D) | XDict (l : list (string * extracted D)).
Arguments XRaw {D}. Arguments XDict {D}.
Fixpoint extract_data {D} (p : pushed D) : result (extracted D) :=
  match p with
  | PRaw d => Ok (XRaw d)
  | PResult (Some d) => Ok (XRaw d)
  | PResult None => Raise AttributeError
  | PDict l =>
      do r <- (fix go l := match l with
                           | [] => Ok []
                           | (k, v) :: l' => do x <- extract_data v; do r <- go l'; Ok ((k, x) :: r)
                           end) l;
      Ok (XDict r)
  end.

(** ** Networks and their storage *)
Section Storage.
  (** [V]: values; [W]: tensors.  [Cls]: classes of networks. *)
  Context {V W Cls : Type}.
  (** A torch.nn.Module: its plain attributes, its parameters and buffers by
      name ([state_dict]), and whether it is in training mode.  A value that is
      itself a module or a parameter is kept elsewhere by nn.Module.__setattr__, and
      is not in __dict__. *)
  Record net := { n_cls : Cls; n_dict : kw V; n_weights : kw W; n_training : bool }.
  (** [params c]: the parameters of __init__ apart from self; [construct]: calling
      the class with positional arguments; [fits]: load_state_dict accepts these
      tensors for a network with those (strict: same names, same shapes) *)
  Context (params : Cls -> list string) (construct : Cls -> list V -> result net)
          (fits : kw W -> kw W -> bool).

  (** persistence/util.py:25-33 *)
  Definition extract_init_args (n : net) : result (list V) :=
    mapM (fun k => match lookup k (n_dict n) with Some v => Ok v | None => Raise KeyError end) (params (n_cls n)).
  (** load_state_dict; and [eval()] *)
  Definition load_state (n : net) (w : kw W) : result net :=
    if fits (n_weights n) w
    then Ok {| n_cls := n_cls n; n_dict := n_dict n; n_weights := w; n_training := n_training n |}
    else Raise RuntimeError.
  Definition set_eval (n : net) : net :=
    {| n_cls := n_cls n; n_dict := n_dict n; n_weights := n_weights n; n_training := false |}.
  (** pytorch_model.py:134-138; the trainer is a parameter *)
  Definition trained (trainer : result net) : result net := do n <- trainer; Ok (set_eval n).

  (** A value that an Op holds: an ordinary one or a network *)
  Inductive held := HVal (v : V) | HNet (n : net).
  (** pytorch_model.py:8-11: [data] is None after for_storage (69-75) *)
  Record presult := {
    p_data : option V; p_op : op held; p_inv_data : op held; p_inverse : op held; p_name : string }.
  (** pytorch_model.py:30-38 *)
  Record state := {
    s_forward : code held; s_op_kwargs : kw held; s_inv_data : code held; s_backward : code held;
    s_weights : kw W; s_name : string; s_cls : Cls; s_init_args : list V }.
  (** pytorch_model.py:13-38 __getstate__; [op.network] goes through
      Op.__getattr__ (preprocess.py:39-46), and a value without state_dict raises
      AttributeError *)
  Definition getstate (p : presult) : result state :=
    do n <- op_attr (p_op p) "network";
    match n with
    | HVal _ => Raise AttributeError
    | HNet n =>
        do args <- extract_init_args n;
        do k <- dict_del "network" (o_kwargs (p_op p));
        Ok {| s_forward := o_code (p_op p); s_op_kwargs := k; s_inv_data := o_code (p_inv_data p);
              s_backward := o_code (p_inverse p); s_weights := n_weights n; s_name := p_name p;
              s_cls := n_cls n; s_init_args := args |}
    end.
  (** pytorch_model.py:40-67 __setstate__; moving the network to a GPU is not
      modelled, and nothing sets [data].  [Op(f, network=network, **kwargs)] with a
      second [network] is a TypeError. *)
  Definition setstate (s : state) : result (kw unit * presult) :=
    do n <- construct (s_cls s) (s_init_args s);
    do n <- load_state n (s_weights s);
    let n := set_eval n in
    if mem "network" (keys (s_op_kwargs s)) then Raise TypeError
    else Ok ([("op", tt); ("inversion_data", tt); ("inverse", tt); ("name", tt)],
             {| p_data := None;
                p_op := {| o_code := s_forward s; o_kwargs := ("network", HNet n) :: s_op_kwargs s |};
                p_inv_data := {| o_code := s_inv_data s; o_kwargs := [("network", HNet n)] |};
                p_inverse := {| o_code := s_backward s; o_kwargs := [] |};
                p_name := s_name s |}).
  Definition store_and_load (p : presult) : result (kw unit * presult) := do s <- getstate p; setstate s.
  (** preprocess.py:86-89 and 39-46: reading [data] from an object whose __dict__
      has these names *)
  Definition read_data (dict : kw unit) (p : presult) : result (option held) :=
    match lookup "data" dict with
    | Some _ => Ok (match p_data p with Some v => Some (HVal v) | None => None end)
    | None => do v <- op_attr (p_op p) "data"; Ok (Some v)
    end.
End Storage.
Arguments net : clear implicits.
Arguments held : clear implicits.
Arguments presult : clear implicits.
Arguments state : clear implicits.

(** ** What a training node passes on *)
Section Process.
  Context {D : Type}.
  (** Does an exception have a [message] attribute?  It has under Python 2 and has not
      under Python 3, where reading it raises AttributeError inside the handler. *)
  Context (has_message : bool).
  (** pytorch_model.py:149-157 and 221-230: the data passed on *)
  Definition try_forward (forward : D -> result D) (x : D) : result (option D) :=
    match forward x with
    | Ok y => Ok (Some y)
    | Raise RuntimeError => if has_message then Ok None else Raise AttributeError
    | Raise e => Raise e
    end.
End Process.

Section Retry.
  Context {A B : Type} (has_message : bool) (forward : list A -> result B).
  (** pytorch_model.py:286-301 the loop of PyTorchAutoEncoder, as the outcomes it can
      reach: an input for which it would go on for ever has none.  [len(inp) // 64]
      rows are tried next. *)
  Inductive retry : list A -> result (option B) -> Prop :=
  | retry_ok inp y : forward inp = Ok y -> retry inp (Ok (Some y))
  | retry_value inp : forward inp = Raise ValueError -> retry inp (Ok None)
  | retry_no_message inp : forward inp = Raise RuntimeError -> has_message = false -> retry inp (Raise AttributeError)
  | retry_again inp r : forward inp = Raise RuntimeError -> has_message = true ->
      retry (py_slice None (Some (Zlen inp / 64)%Z) inp) r -> retry inp r
  | retry_other inp e : forward inp = Raise e -> e <> ValueError -> e <> RuntimeError -> retry inp (Raise e).
End Retry.

(** pytorch_model.py:140-169 PyTorchNetwork._process: the chunk size with which the
    training data is processed, and the one kept in the Op *)
Definition train_chunksize (chunksize : option Z) (batch_size : Z) : Z :=
  match chunksize with Some c => if (c =? 0)%Z then batch_size else c | None => batch_size end.
Definition stored_chunksize (chunksize : option Z) (batch_size : Z) : Z := batch_size.
(** pytorch_model.py:96-105, 147-153: the rows passed on, and what the Op computes *)
Definition network_passes_on {A B} (net : list A -> list B) (post : list A -> list A)
    (chunksize : option Z) (batch_size : Z) (x : list A) : result (list B) :=
  apply_network net (post x) (Some (train_chunksize chunksize batch_size)).
Definition network_op {A B} (net : list A -> list B) (chunksize : option Z) (batch_size : Z) (x : list A)
  : result (list B) := apply_network net x (Some (stored_chunksize chunksize batch_size)).

(** pytorch_model.py:173-181, 184-194, 221-232 PyTorchGan *)
Inductive which := Generator | Discriminator.
Definition which_of (s : string) : result which :=
  if s =? "generator" then Ok Generator
  else if s =? "discriminator" then Ok Discriminator
  else Raise ValueError.
Definition gan_forward {A B} (gen disc : list A -> list B) (w : which) (x : list A) : result (list B) :=
  apply_network (match w with Generator => gen | Discriminator => disc end) x (Some 128%Z).
Definition gan_passes_on {A B} (gen disc : list A -> list B) (w : which) (x : list A) : result (list B) :=
  gan_forward gen disc Discriminator x.
Definition gan_op {A B} (gen disc : list A -> list B) (w : which) (x : list A) : result (list B) :=
  gan_forward gen disc w x.

(** ** Dimensions of the results *)
Section Dims.
  Context {X : Type} (shape_of : X -> list nat).
  (** an array with or without dimensions *)
  Inductive arr := Bare (x : X) | Units (a : awu (X := X)).
  Definition raw (a : arr) : X := match a with Bare x => x | Units a => data a end.
  (** pytorch_model.py:101-105; [r] is what the network returned *)
  Definition net_dims (d : arr) (r : X) : result arr :=
    match d with
    | Bare _ => Ok (Bare r)
    | Units a =>
        do d0 <- py_get (dims a) 0;
        match awu_new shape_of r [d0; DIdent] with
        | Ok u => Ok (Units u)
        | Raise ValueError => Ok (Bare r)
        | Raise AttributeError => Ok (Bare r)
        | Raise e => Raise e
        end
    end.
  (** pytorch_model.py:196-203 *)
  Definition gan_dims (d : arr) (r : X) : result arr :=
    match d with
    | Bare _ => Ok (Bare r)
    | Units a =>
        match awu_new shape_of r (py_slice None (Some (-1)%Z) (dims a) ++ [DIdent])%list with
        | Ok u => Ok (Units u)
        | Raise ValueError => Ok (Bare r)
        | Raise AttributeError => Ok (Bare r)
        | Raise e => Raise e
        end
    end.
  (** pytorch_model.py:258-263 *)
  Definition encoder_dims (d : arr) (r : X) : result arr :=
    match d with
    | Bare _ => Ok (Bare r)
    | Units a =>
        match awu_new shape_of r (py_slice None (Some 1%Z) (dims a) ++ repeat DIdent (List.length (shape_of r) - 1))%list with
        | Ok u => Ok (Units u)
        | Raise AttributeError => Ok (Bare r)
        | Raise e => Raise e
        end
    end.
End Dims.

(** ** scikit-learn models *)
(** sklearn_preprocessor.py:10-17: rows of the flattened examples; [model] maps a
    matrix to a matrix.  Arrays are shape and contents (Preproc.v). *)
Definition sk_flatten (a : ndarr) : result ndarr :=
  match fst a with
  | [] => Raise IndexError
  | n :: _ => reshape_to a [n; (-1)%Z]
  end.
Definition sk_forward (model : ndarr -> result ndarr) (a : ndarr) : result ndarr :=
  do m <- sk_flatten a; model m.
(** sklearn_preprocessor.py:22-23 *)
Definition sk_backward (model_inverse : ndarr -> result ndarr) (shape : list Z) (a : ndarr) : result ndarr :=
  do m <- model_inverse a; reshape_to m ((-1)%Z :: shape).
(** sklearn_preprocessor.py:27-41: the shape kept is that of the training data
    without its first axis *)
Definition sk_shape (train : ndarr) : list Z := skipn 1 (fst train).
(** sklearn_preprocessor.py:49-51 WithComponents: np.dot(d, components) for one row,
    [w] features *)
Definition components_inverse (components : list (list R)) (w : nat) (row : list R) : list R :=
  map (fun j => rsum (List.length components) (fun k => at_ row k * at_ (nth k components []) j)%R) (seq 0 w).
(** what a centred linear model (PCA without whitening) computes for one row: the
    products of the centred row with the components, and its own inverse, which adds
    the mean again *)
Definition centred_transform (components : list (list R)) (w : nat) (mean row : list R) : list R :=
  map (fun k => rsum w (fun i => (at_ row i - at_ mean i) * at_ (nth k components []) i)%R) (seq 0 (List.length components)).
Definition centred_inverse (components : list (list R)) (w : nat) (mean row : list R) : list R :=
  map (fun j => (rsum (List.length components) (fun k => at_ row k * at_ (nth k components []) j) + at_ mean j)%R) (seq 0 w).

(** ** Learning graphs *)
(** graph.py:20-26: the features of a class and whether each is a root *)
Definition single_root (features : list (string * bool)) : result string :=
  match filter snd features with
  | [f] => Ok (fst f)
  | _ => Raise ValueError
  end.
(** graph.py:41-53: iterating over a Pipeline goes through __getitem__ with 0, 1, ...
    until IndexError (preprocess.py:674-676) *)
Fixpoint first_network {V} (ops : list (op V)) : result V :=
  match ops with
  | [] => Raise RuntimeError
  | o :: ops' => match op_attr o "network" with
                 | Ok n => Ok n
                 | Raise AttributeError => first_network ops'
                 | Raise e => Raise e
                 end
  end.
Definition load_network {V} (exists_ : bool) (ops : list (op V)) : result V :=
  if exists_ then first_network ops else Raise RuntimeError.

(** util.py:55-60 model_hash: hashlib's update of a str; [strict] is Python 3 *)
Definition model_hash (strict : bool) (md5 : string -> string) (text : string) (params : list string) : result string :=
  if strict then Raise TypeError else Ok (md5 (text ++ String.concat "" params)).
