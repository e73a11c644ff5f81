(** Model of the pipeline machinery of zounds/learn/preprocess.py: Pipeline,
    PipelineResult and the PreprocessingPipeline node. *)
From Verif Require Import PyBase PyFacts PyMore.

Section Pipeline.
  (** [D]: data; [K]: the keyword arguments handed to an inverse; [W]: the class
      and [kwargs()] of wrapped data, with [wrap] giving None where the data has
      no [kwargs] method (preprocess.py:681-687), and [rebuild] calling the class
      (preprocess.py:719-723). *)
  Context {D K W : Type} (wrap : D -> option W) (rebuild : W -> D -> result D).

  (** What a forward Op returns: a plain value, or a ForwardResult
      (preprocess.py:454-457). *)
  Inductive fwd := Plain (d : D) | Forward (d : D) (k : K).

  (** preprocess.py:58-93 PreprocessResult: the three Ops, closed over their own
      keyword arguments (Op.__call__, preprocess.py:47-55, in which the Op's own
      arguments win) *)
  Record step := { op : D -> result fwd; inv_data : D -> result K; inverse : D -> K -> result D }.

  (** preprocess.py:689-708 the loop of Pipeline.transform *)
  Fixpoint run (ps : list step) (data : D) : result (D * list K * list (option W)) :=
    match ps with
    | [] => Ok (data, [], [])
    | p :: ps' =>
        let w := wrap data in
        do out <- op p data;
        do dk <- (match out with
                  | Forward d k => Ok (d, k)
                  | Plain d => do k <- inv_data p data; Ok (d, k)
                  end);
        do r <- run ps' (fst dk);
        let '(d, ks, ws) := r in Ok (d, snd dk :: ks, w :: ws)
    end.
  (** preprocess.py:711-717 PipelineResult: everything reversed *)
  Record presult := { r_data : D; r_steps : list step; r_inv : list K; r_wrap : list (option W) }.
  Definition transform (ps : list step) (data : D) (wrapper : option (D -> result D)) : result presult :=
    do r <- run ps data;
    let '(d, ks, ws) := r in
    do d <- (match wrapper with None => Ok d | Some f => f d end);
    Ok {| r_data := d; r_steps := rev ps; r_inv := rev ks; r_wrap := rev ws |}.

  (** preprocess.py:719-723 *)
  Definition unwrap (d : D) (w : option W) : result D :=
    match w with None => Ok d | Some w => rebuild w d end.
  (** preprocess.py:725-731; zip stops at the shortest list *)
  Fixpoint unroll (ks : list K) (ws : list (option W)) (ps : list step) (data : D) : result D :=
    match ks, ws, ps with
    | k :: ks', w :: ws', p :: ps' =>
        do d <- inverse p data k; do d <- unwrap d w; unroll ks' ws' ps' d
    | _, _, _ => Ok data
    end.
  Definition inverse_transform (r : presult) : result D := unroll (r_inv r) (r_wrap r) (r_steps r) (r_data r).

  (** preprocess.py:673-679 Pipeline.__getitem__ with a list of ints and with a slice *)
  Definition sub_list (ps : list step) (ix : list Z) : result (list step) := mapM (py_get ps) ix.
  Definition sub_slice (ps : list step) (a b : option Z) : list step := py_slice a b ps.
End Pipeline.
Arguments step : clear implicits.
Arguments presult : clear implicits.
Arguments fwd : clear implicits.

(** ** PreprocessingPipeline, preprocess.py:734-836 *)
Section Node.
  Context {P : Type}.
  (** an OrderedDict keyed by node identity *)
  Definition odict := list (nat * option P).
  (** preprocess.py:819-820 *)
  Definition init_pipeline (needs : list nat) : odict := map (fun n => (n, None)) needs.
  (** preprocess.py:822-823: assignment keeps the place of an existing key *)
  Fixpoint set_item (d : odict) (k : nat) (v : option P) : odict :=
    match d with
    | [] => [(k, v)]
    | (k', v') :: d' => if (k =? k')%nat then (k', v) :: d' else (k', v') :: set_item d' k v
    end.
  (** preprocess.py:825-836 with the featureflow contract: one dequeue per
      arrival; [None] is NotEnoughData *)
  Definition dequeue (needs : list nat) (d : odict) : odict * option (list P) :=
    match sequence (map snd d) with
    | None => (d, None)
    | Some ps => (init_pipeline needs, Some ps)
    end.
  Definition arrive (needs : list nat) (d : odict) (ev : nat * P) : odict * option (list P) :=
    dequeue needs (set_item d (fst ev) (Some (snd ev))).
  (** the outputs, one per arrival *)
  Fixpoint feed (needs : list nat) (d : odict) (evs : list (nat * P)) : list (option (list P)) :=
    match evs with
    | [] => []
    | ev :: evs' => let '(d', o) := arrive needs d ev in o :: feed needs d' evs'
    end.
  Definition node_run (needs : list nat) (evs : list (nat * P)) : list (option (list P)) :=
    feed needs (init_pipeline needs) evs.
End Node.
