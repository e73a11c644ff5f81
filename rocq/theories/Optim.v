(** Model of what the trainers of zounds/learn do to parameters, gradients and
    optimizers: wgan.py, embedding.py, supervised.py.  What networks, losses and
    their gradients compute are parameters of the model; which gradients reach
    which parameters, when they are cleared, and which steps are made are modelled. *)
From Verif Require Import PyBase PyFacts PyMore PyRange.
Local Open Scope Z_scope.

Section Torch.
  (** [V]: the values of a parameter, [S]: what Adam remembers of a parameter,
      [adam state value gradient]: the new value and state.  [to_none]: whether
      zero_grad drops gradients (newer torch) or overwrites them with zeros. *)
  Context {V S : Type} (vzero : V -> V) (vadd : V -> V -> V) (adam : S -> V -> V -> V * S) (s0 : S) (to_none : bool).
  Record param := { p_val : V; p_grad : option V; p_req : bool }.
  Definition vals (ps : list param) : list V := map p_val ps.
  (** torch: Module.zero_grad *)
  Definition zero_grad (ps : list param) : list param :=
    map (fun p => {| p_val := p_val p; p_grad := if to_none then None else option_map vzero (p_grad p); p_req := p_req p |}) ps.
  (** wgan.py:101-115 for p in parameters(): p.requires_grad = b *)
  Definition require (b : bool) (ps : list param) : list param :=
    map (fun p => {| p_val := p_val p; p_grad := p_grad p; p_req := b |}) ps.
  (** torch: backward adds the gradient of the loss to the gradient of every
      parameter the loss depends on ([None]: it does not) that requires one *)
  Definition add_grad (p : param) (g : option V) : param :=
    match g with
    | Some g => if p_req p
                then {| p_val := p_val p; p_grad := Some (match p_grad p with None => g | Some h => vadd h g end); p_req := true |}
                else p
    | None => p
    end.
  Fixpoint accumulate (ps : list param) (gs : list (option V)) : list param :=
    match ps, gs with
    | p :: ps', g :: gs' => add_grad p g :: accumulate ps' gs'
    | _, _ => ps
    end.
  Definition reached (ps : list param) (gs : list (option V)) : bool :=
    existsb (fun q => p_req (fst q) && match snd q with Some _ => true | None => false end)%bool (combine ps gs).
  (** torch: a loss that depends on no parameter requiring a gradient cannot be
      propagated *)
  Definition backward (nets : list (list param * list (option V))) : result (list (list param)) :=
    if existsb (fun q => reached (fst q) (snd q)) nets then Ok (map (fun q => accumulate (fst q) (snd q)) nets) else Raise RuntimeError.
  (** torch: an optimizer holds some of the parameters; it cannot hold none *)
  Definition opt := list (option S).
  Definition opt_init (ps : list param) : result opt :=
    let o := map (fun p => if p_req p then Some s0 else None) ps in
    if existsb p_req ps then Ok o else Raise ValueError.
  (** torch: step updates the parameters it holds that have a gradient *)
  Definition step1 (s : option S) (p : param) : option S * param :=
    match s, p_grad p with
    | Some s, Some g => let '(v, s') := adam s (p_val p) g in
                        (Some s', {| p_val := v; p_grad := Some g; p_req := p_req p |})
    | _, _ => (s, p)
    end.
  Fixpoint opt_step (o : opt) (ps : list param) : opt * list param :=
    match o, ps with
    | s :: o', p :: ps' => let '(s', p') := step1 s p in let '(o'', ps'') := opt_step o' ps' in (s' :: o'', p' :: ps'')
    | _, _ => (o, ps)
    end.

  (** ** wgan.py *)
  Section Gan.
    (** [A]: examples, [N]: noise (and the interpolation factors of the gradient
        penalty), [K]: the keyword arguments of an epoch, [L]: numbers reported.
        [d_loss]: the critic's loss, the mean score of the real examples, and the
        gradient of the loss in the critic's parameters; [g_loss]: the generator's
        loss and its gradients in the parameters of the generator and the critic. *)
    Context {A N K L : Type}.
    Context (kwargs_of : Z -> K)
            (d_loss : K -> list V -> list V -> list A -> N -> L * L * list V)
            (g_loss : K -> list V -> list V -> N -> L * list V * list V)
            (rows_drawn : Z -> Z -> nat -> list Z) (noise_drawn : Z -> Z -> nat -> N) (gen_noise : Z -> Z -> N).
    Record gan := { g_gen : list param; g_crit : list param; g_gopt : option opt; g_copt : option opt; g_epoch : Z }.
    Record report := { r_epoch : Z; r_batch : Z; r_gen : L; r_real : L; r_critic : L }.
    Definition set_gen (f : list param -> list param) (st : gan) : gan :=
      {| g_gen := f (g_gen st); g_crit := g_crit st; g_gopt := g_gopt st; g_copt := g_copt st; g_epoch := g_epoch st |}.
    Definition set_crit (f : list param -> list param) (st : gan) : gan :=
      {| g_gen := g_gen st; g_crit := f (g_crit st); g_gopt := g_gopt st; g_copt := g_copt st; g_epoch := g_epoch st |}.
    (** wgan.py:101-103, 105-107, 109-111, 113-115 *)
    Definition freeze_generator := set_gen (require false).
    Definition unfreeze_generator := set_gen (require true).
    Definition freeze_discriminator := set_crit (require false).
    Definition unfreeze_discriminator := set_crit (require true).
    (** wgan.py:126-128, 130-132 (printing gradients left out) *)
    Definition zero_generator_gradients := set_gen zero_grad.
    Definition zero_discriminator_gradients := set_crit zero_grad.
    (** wgan.py:134-145 *)
    Definition init_optimizers (st : gan) : gan * result unit :=
      match g_gopt st, g_copt st with
      | Some _, Some _ => (st, Ok tt)
      | _, _ =>
          match opt_init (g_gen st) with
          | Raise e => (st, Raise e)
          | Ok go =>
              match opt_init (g_crit st) with
              | Raise e => ({| g_gen := g_gen st; g_crit := g_crit st; g_gopt := Some go; g_copt := g_copt st; g_epoch := g_epoch st |}, Raise e)
              | Ok co => ({| g_gen := g_gen st; g_crit := g_crit st; g_gopt := Some go; g_copt := Some co; g_epoch := g_epoch st |}, Ok tt)
              end
          end
      end.
    (** wgan.py:186-213 one critic iteration.  The fake examples are detached from
        the generator (194-195: [.data]), so the loss does not depend on it.
        wgan.py:56-58 [_minibatch]: rows at random positions.  Result: loss and mean
        score of the real examples. *)
    Definition critic_iteration (data : list A) (epoch i : Z) (c : nat) (st : gan) : gan * result (L * L) :=
      let st := zero_discriminator_gradients st in
      match mapM (py_get data) (rows_drawn epoch i c) with
      | Raise e => (st, Raise e)
      | Ok rows =>
          let '(l, real, gs) := d_loss (kwargs_of epoch) (vals (g_gen st)) (vals (g_crit st)) rows (noise_drawn epoch i c) in
          match backward [(g_gen st, map (fun _ => None) (g_gen st)); (g_crit st, map Some gs)] with
          | Ok [gen; crit] =>
              match g_copt st with
              | None => (st, Raise AttributeError)
              | Some o =>
                  let '(o', crit') := opt_step o crit in
                  ({| g_gen := gen; g_crit := crit'; g_gopt := g_gopt st; g_copt := Some o'; g_epoch := g_epoch st |}, Ok (l, real))
              end
          | Ok _ => (st, Raise OtherError)
          | Raise e => (st, Raise e)
          end
      end.
    (** wgan.py:185 the loop; [last]: d_loss and real_mean, unbound at first *)
    Fixpoint critic_loop (data : list A) (epoch i : Z) (cs : list nat) (last : option (L * L)) (st : gan) : gan * result (option (L * L)) :=
      match cs with
      | [] => (st, Ok last)
      | c :: cs' =>
          match critic_iteration data epoch i c st with
          | (st', Ok x) => critic_loop data epoch i cs' (Some x) st'
          | (st', Raise e) => (st', Raise e)
          end
      end.
    (** wgan.py:179-244 one batch.  d_loss and real_mean are variables of train, but
        the loop assigns them in every batch or in none. *)
    Definition gan_batch (n_critic : Z) (data : list A) (epoch i : Z) (st : gan) : gan * result report :=
      let st := zero_generator_gradients st in
      let st := zero_discriminator_gradients st in
      let st := freeze_generator st in
      let st := unfreeze_discriminator st in
      match critic_loop data epoch i (seq 0 (Z.to_nat n_critic)) None st with
      | (st, Raise e) => (st, Raise e)
      | (st, Ok last) =>
          let st := zero_discriminator_gradients st in
          let st := zero_generator_gradients st in
          let st := unfreeze_generator st in
          let st := freeze_discriminator st in
          let '(l, gs, cs) := g_loss (kwargs_of epoch) (vals (g_gen st)) (vals (g_crit st)) (gen_noise epoch i) in
          match backward [(g_gen st, map Some gs); (g_crit st, map Some cs)] with
          | Ok [gen; crit] =>
              match g_gopt st with
              | None => (st, Raise AttributeError)
              | Some o =>
                  let '(o', gen') := opt_step o gen in
                  let st := {| g_gen := gen'; g_crit := crit; g_gopt := Some o'; g_copt := g_copt st; g_epoch := g_epoch st |} in
                  match last with
                  | None => (st, Raise UnboundLocalError)
                  | Some (dl, rl) => (st, Ok {| r_epoch := epoch; r_batch := i; r_gen := l; r_real := rl; r_critic := dl |})
                  end
              end
          | Ok _ => (st, Raise OtherError)
          | Raise e => (st, Raise e)
          end
      end.
    Fixpoint gan_batches (n_critic : Z) (data : list A) (epoch : Z) (is : list Z) (st : gan) : gan * list report * result unit :=
      match is with
      | [] => (st, [], Ok tt)
      | i :: is' =>
          match gan_batch n_critic data epoch i st with
          | (st', Raise e) => (st', [], Raise e)
          | (st', Ok r) => let '(st'', rs, o) := gan_batches n_critic data epoch is' st' in (st'', r :: rs, o)
          end
      end.
    (** wgan.py:170-172, 178, 246 *)
    Fixpoint gan_epochs (n_critic batch epochs : Z) (data : list A) (n : nat) (epoch : Z) (st : gan) : gan * list report * result unit :=
      match n with
      | O => (st, [], Ok tt)
      | Datatypes.S n' =>
          if epochs <=? epoch then (st, [], Ok tt)
          else match py_range 0 (Zlen data) batch with
               | Raise e => (st, [], Raise e)
               | Ok is =>
                   match gan_batches n_critic data epoch is st with
                   | (st', rs, Raise e) => (st', rs, Raise e)
                   | (st', rs, Ok _) =>
                       let st' := {| g_gen := g_gen st'; g_crit := g_crit st'; g_gopt := g_gopt st'; g_copt := g_copt st'; g_epoch := g_epoch st' + 1 |} in
                       let '(st'', rs', o) := gan_epochs n_critic batch epochs data n' (epoch + 1) st' in (st'', rs ++ rs', o)
                   end
               end
      end.
    (** wgan.py:151-248 *)
    Definition gan_train (n_critic batch epochs checkpoint : Z) (data : list A) (st : gan) : gan * list report * result unit :=
      let st := unfreeze_discriminator st in
      let st := unfreeze_generator st in
      match init_optimizers st with
      | (st, Raise e) => (st, [], Raise e)
      | (st, Ok _) => gan_epochs n_critic batch epochs data (Z.to_nat checkpoint) (g_epoch st) st
      end.
  End Gan.

  (** ** embedding.py *)
  Section Triplet.
    Context {A L : Type}.
    (** the loss of anchors, positives and negatives (after the network and
        normalisation) and its gradient; [cut]: the anchor slice of an example *)
    Context (t_loss : list V -> list A -> list A -> list A -> L * list V) (cut : A -> A)
            (anchors negatives : Z -> Z -> list Z) (pick : Z -> Z -> nat).
    Record single := { n_params : list param; n_opt : option opt; n_epoch : Z }.
    (** embedding.py:97-115; [choice] of None is a TypeError, of nothing an IndexError *)
    Definition triplet_step (deformations : option (list (list A -> list A -> list A))) (data : list A) (epoch b : Z) (st : single) : single * result L :=
      let st := {| n_params := zero_grad (n_params st); n_opt := n_opt st; n_epoch := n_epoch st |} in
      match mapM (py_get data) (anchors epoch b), mapM (py_get data) (negatives epoch b) with
      | Ok wide, Ok neg =>
          match deformations with
          | None => (st, Raise TypeError)
          | Some fs =>
              match nth_error fs (pick epoch b) with
              | None => (st, Raise IndexError)
              | Some f =>
                  let anchor := map cut wide in
                  let '(l, gs) := t_loss (vals (n_params st)) anchor (f anchor wide) (map cut neg) in
                  match backward [(n_params st, map Some gs)] with
                  | Ok [ps] =>
                      match n_opt st with
                      | None => (st, Raise AttributeError)
                      | Some o => let '(o', ps') := opt_step o ps in ({| n_params := ps'; n_opt := Some o'; n_epoch := n_epoch st |}, Ok l)
                      end
                  | Ok _ => (st, Raise OtherError)
                  | Raise e => (st, Raise e)
                  end
              end
          end
      | _, _ => (st, Raise IndexError)
      end.
    (** supervised.py:82-120 one batch: the loss of the rows of a slice; the test batch
        changes no parameter.  [crashes]: the forward pass raises a RuntimeError, with
        'Assert' in its message or not; on Python 3 exceptions have no message.  The
        result is the training error, unless the batch was skipped. *)
    Context (s_loss : list V -> list A -> L * list V) (crashes : Z -> Z -> option bool) (python2 : bool).
    Definition supervised_step (batch : Z) (train : list A) (epoch i : Z) (st : single) : single * result (option L) :=
      let st := {| n_params := zero_grad (n_params st); n_opt := n_opt st; n_epoch := n_epoch st |} in
      match crashes epoch i with
      | Some is_assert =>
          (st, if python2 then (if is_assert then Ok None else Raise RuntimeError) else Raise AttributeError)
      | None =>
          let '(l, gs) := s_loss (vals (n_params st)) (py_slice (Some i) (Some (i + batch)) train) in
          match backward [(n_params st, map Some gs)] with
          | Ok [ps] =>
              match n_opt st with
              | None => (st, Raise AttributeError)
              | Some o => let '(o', ps') := opt_step o ps in ({| n_params := ps'; n_opt := Some o'; n_epoch := n_epoch st |}, Ok (Some l))
              end
          | Ok _ => (st, Raise OtherError)
          | Raise e => (st, Raise e)
          end
      end.

    Fixpoint steps {R} (f : Z -> Z -> single -> single * result R) (epoch : Z) (bs : list Z) (st : single) : single * list R * result unit :=
      match bs with
      | [] => (st, [], Ok tt)
      | b :: bs' =>
          match f epoch b st with
          | (st', Raise e) => (st', [], Raise e)
          | (st', Ok l) => let '(st'', ls, o) := steps f epoch bs' st' in (st'', l :: ls, o)
          end
      end.
    Fixpoint epochs_of_steps {R} (f : Z -> Z -> single -> single * result R) (stop : Z -> bool) (bs : list Z) (n : nat) (epoch : Z) (st : single) : single * list R * result unit :=
      match n with
      | O => (st, [], Ok tt)
      | Datatypes.S n' =>
          if stop epoch then (st, [], Ok tt)
          else match steps f epoch bs st with
               | (st', ls, Raise e) => (st', ls, Raise e)
               | (st', ls, Ok _) =>
                   let st' := {| n_params := n_params st'; n_opt := n_opt st'; n_epoch := n_epoch st' + 1 |} in
                   let '(st'', ls', o) := epochs_of_steps f stop bs n' (epoch + 1) st' in (st'', ls ++ ls', o)
               end
      end.
    (** embedding.py:60-70, 88-122: a new optimizer of the trainable parameters for every call *)
    Definition triplet_fit (deformations : option (list (list A -> list A -> list A))) (batch epochs checkpoint : Z) (data : list A) (st : single) : single * list L * result unit :=
      match opt_init (n_params st) with
      | Raise e => (st, [], Raise e)
      | Ok o =>
          let st := {| n_params := n_params st; n_opt := Some o; n_epoch := n_epoch st |} in
          if batch =? 0 then (st, [], Raise ZeroDivisionError)
          else epochs_of_steps (triplet_step deformations data) (fun e => epochs <? e) (zrange (Zlen data / batch)) (Z.to_nat checkpoint) (n_epoch st) st
      end.
    (** supervised.py:53-59, 75-124; [train]: the examples (with labels) not held out *)
    Definition supervised_fit (batch epochs checkpoint : Z) (train : list A) (st : single) : single * list (option L) * result unit :=
      match py_range 0 (Zlen train) batch with
      | Raise e => if (0 <? checkpoint) && (n_epoch st <? epochs) then (st, [], Raise e) else (st, [], Ok tt)
      | Ok is => epochs_of_steps (supervised_step batch train) (fun e => epochs <=? e) is (Z.to_nat checkpoint) (n_epoch st) st
      end.
  End Triplet.
End Torch.
Arguments param : clear implicits.
Arguments gan : clear implicits.
Arguments report : clear implicits.
Arguments single : clear implicits.
Arguments opt : clear implicits.
