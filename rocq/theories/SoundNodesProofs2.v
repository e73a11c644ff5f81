(** Proofs about Resampler and functional.resample. *)
From Coq Require Import ZArith Lia.
From Verif Require Import PyBase PyFacts PyMore PyRange Time Audio AudioProofs SoundNodes.
Local Open Scope Z_scope.

Section ResampleFacts.
  Context {V Q : Type} (zero : V) (src_new : Q) (src : Q -> list (list V) -> nat -> bool -> Q * list (list V)).
  Notation node := (resampler_node zero src_new src).
  Notation frame channels := (repeat zero channels).

  (** the frames a chunk of [len] frames becomes: the exact number, halves going to the even one *)
  Definition nframes (new old : Z) (x : list (list V)) : nat := Z.to_nat (round_half_even (Zlen x * new) old).
  (** what the converter gives for one chunk, cut or filled with silence to that number *)
  Definition fitted (channels n : nat) (gen : list (list V)) : list (list V) := (firstn n gen ++ repeat (frame channels) (n - length gen))%list.
  (** the converter's state after one second of silence *)
  Definition primed (new old : Z) (channels : nat) : Q :=
    let silence := repeat (frame channels) (Z.to_nat new) in fst (src src_new silence (nframes new old silence) false).
  Fixpoint run (new old : Z) (channels : nat) (st : Q) (chunks : list (list (list V))) : list (list (list V)) :=
    match chunks with
    | [] => []
    | x :: xs => let r := src st x (nframes new old x) false in fitted channels (nframes new old x) (snd r) :: run new old channels (fst r) xs
    end.

  Lemma fitted_length channels n gen : length (fitted channels n gen) = n.
  Proof. unfold fitted. rewrite app_length, firstn_length, repeat_length. lia. Qed.
  Lemma call_ok r x e : nframes (r_new r) (r_old r) x <> 1%nat ->
    let p := src (r_state r) x (nframes (r_new r) (r_old r) x) e in
    resample_call zero src r x e = Ok ({| r_new := r_new r; r_old := r_old r; r_channels := r_channels r; r_state := fst p |}, fitted (r_channels r) (nframes (r_new r) (r_old r) x) (snd p)).
  Proof.
    intros H. unfold resample_call, resample_length. fold (nframes (r_new r) (r_old r) x). unfold output_buffer. destruct (Nat.eqb_spec (nframes (r_new r) (r_old r) x) 1) as [E|_]; [contradiction|].
    destruct (src (r_state r) x (nframes (r_new r) (r_old r) x) e) as [st gen]. cbn [fst snd]. unfold fitted. rewrite firstn_length.
    replace (nframes (r_new r) (r_old r) x - Nat.min (nframes (r_new r) (r_old r) x) (length gen))%nat with (nframes (r_new r) (r_old r) x - length gen)%nat by lia. reflexivity.
  Qed.
  Lemma feed_run new old channels chunks : new <> old -> forall st, Forall (fun x => nframes new old x <> 1%nat) chunks ->
    resampler_feed zero src_new src new (Some {| r_new := new; r_old := old; r_channels := channels; r_state := st |}) old channels chunks = Ok (run new old channels st chunks).
  Proof.
    intros Hn. induction chunks as [|x xs IH]; intros st F; cbn [resampler_feed run]; [reflexivity|]. apply Forall_cons_iff in F. destruct F as [Hx F].
    unfold resampler_process. cbn [bind r_new r_old]. destruct (Z.eqb_spec new old) as [E|_]; [contradiction|].
    rewrite (call_ok {| r_new := new; r_old := old; r_channels := channels; r_state := st |}) by exact Hx. cbn [bind fst snd r_new r_old r_channels r_state]. rewrite IH by exact F. reflexivity.
  Qed.
  (** equal rates: the chunks themselves *)
  Theorem resampler_same rate channels chunks : 0 < rate -> node rate rate channels chunks = Ok chunks.
  Proof.
    intros Hr. unfold resampler_node.
    assert (G : forall st, r_new st = r_old st -> resampler_feed zero src_new src rate (Some st) rate channels chunks = Ok chunks).
    { induction chunks as [|x xs IH]; intros st Hs; cbn [resampler_feed]; [reflexivity|]. unfold resampler_process. cbn [bind]. rewrite Hs, Z.eqb_refl. cbn [bind fst snd]. rewrite IH by exact Hs. reflexivity. }
    destruct chunks as [|x xs]; [reflexivity|]. specialize (G {| r_new := rate; r_old := rate; r_channels := channels; r_state := src_new |} eq_refl).
    cbn [resampler_feed] in *. unfold resampler_process in *. unfold resample_init, valid_ratio. destruct (Z.leb_spec rate (256 * rate)); [|lia]. cbn [bind andb]. rewrite Z.eqb_refl. cbn [bind r_new r_old] in *. rewrite Z.eqb_refl in *. exact G.
  Qed.
  (** different rates: every chunk is converted once, in order, by one converter that has already
      been given one second of silence, and is never told that the input has ended *)
  Theorem resampler_runs new old channels x xs : new <> old -> old <= 256 * new -> new <= 256 * old ->
    nframes new old (repeat (frame channels) (Z.to_nat new)) <> 1%nat -> (forall c, In c (x :: xs) -> nframes new old c <> 1%nat) ->
    node new old channels (x :: xs) = Ok (run new old channels (primed new old channels) (x :: xs)).
  Proof.
    intros Hn H1 H2 Hs Hc. rewrite <- feed_run by (try apply Forall_forall; assumption). unfold resampler_node. cbn [resampler_feed]. unfold resampler_process at 1. unfold resample_init, valid_ratio.
    destruct (Z.leb_spec old (256 * new)); [|lia]. destruct (Z.leb_spec new (256 * old)); [|lia]. cbn [bind andb]. destruct (Z.eqb_spec new old) as [E|_]; [contradiction|].
    rewrite (call_ok {| r_new := new; r_old := old; r_channels := channels; r_state := src_new |}) by exact Hs. cbn [bind fst snd r_new r_old r_channels r_state]. reflexivity.
  Qed.
  Lemma run_lengths new old channels xs : forall st, map (@length _) (run new old channels st xs) = map (nframes new old) xs.
  Proof. induction xs as [|x xs IH]; intros st; cbn [run map]; [reflexivity|]. rewrite fitted_length, IH. reflexivity. Qed.
  (** as many chunks as came in, each of exactly the rounded number of frames *)
  Theorem resampler_lengths new old channels x xs : new <> old -> old <= 256 * new -> new <= 256 * old ->
    nframes new old (repeat (frame channels) (Z.to_nat new)) <> 1%nat -> (forall c, In c (x :: xs) -> nframes new old c <> 1%nat) ->
    exists outs, node new old channels (x :: xs) = Ok outs /\ map (@length _) outs = map (fun c => Z.to_nat (round_half_even (Zlen c * new) old)) (x :: xs).
  Proof. intros Hn H1 H2 Hs Hc. eexists. split; [apply resampler_runs; assumption|]. apply run_lengths. Qed.
  (** a ratio libsamplerate does not accept, whatever the chunks *)
  Theorem resampler_ratio new old channels x xs : 256 * new < old \/ 256 * old < new -> node new old channels (x :: xs) = Raise ValueError.
  Proof. intros H. unfold resampler_node. cbn [resampler_feed]. unfold resampler_process, resample_init, valid_ratio. destruct (Z.leb_spec old (256 * new)); destruct (Z.leb_spec new (256 * old)); try lia; reflexivity. Qed.
  (** a chunk that becomes one frame *)
  Theorem one_frame_refuted new old x xs : new <> old -> old <= 256 * new -> new <= 256 * old ->
    nframes new old x = 1%nat ->
    (nframes new old (repeat (frame 1) (Z.to_nat new)) <> 1%nat -> node new old 1 (x :: xs) = Raise TypeError) /\
    (forall channels, (1 < channels)%nat -> nframes new old (repeat (frame channels) (Z.to_nat new)) <> 1%nat -> node new old channels (x :: xs) = Raise Crash).
  Proof.
    intros Hn H1 H2 Hx.
    assert (G : forall channels, nframes new old (repeat (frame channels) (Z.to_nat new)) <> 1%nat ->
      node new old channels (x :: xs) = (if Nat.eqb channels 1 then Raise TypeError else Raise Crash)).
    { intros channels Hs. unfold resampler_node. cbn [resampler_feed]. unfold resampler_process at 1. unfold resample_init, valid_ratio.
      destruct (Z.leb_spec old (256 * new)); [|lia]. destruct (Z.leb_spec new (256 * old)); [|lia]. cbn [bind andb]. destruct (Z.eqb_spec new old) as [E|_]; [contradiction|].
      rewrite (call_ok {| r_new := new; r_old := old; r_channels := channels; r_state := src_new |}) by exact Hs. cbn [bind fst snd r_new r_old r_channels r_state].
      destruct (Z.eqb_spec new old) as [E|_]; [contradiction|]. unfold resample_call, resample_length. cbn [r_new r_old r_channels]. fold (nframes new old x). rewrite Hx. unfold output_buffer. cbn [Nat.eqb]. destruct (Nat.eqb channels 1); reflexivity. }
    split; [intros Hs; rewrite G by exact Hs; reflexivity|]. intros channels Hc Hs. rewrite G by exact Hs. destruct (Nat.eqb_spec channels 1); [lia|reflexivity].
  Qed.
  (** how the sound is cut into chunks decides how much of it is left: at half the rate, chunks of
      one frame give nothing at all, the same frames in one chunk give half *)
  Theorem resampler_cut_refuted p channels x : 2 < p -> (2 < length x)%nat -> Nat.Even (length x) ->
    (exists outs, node p (2 * p) channels (map (fun f => [f]) x) = Ok outs /\ List.concat outs = []) /\
    (exists out, node p (2 * p) channels [x] = Ok [out] /\ (2 * length out = length x)%nat).
  Proof.
    intros Hp Hx [h Eh].
    assert (R : forall z, round_half_even (z * p) (2 * p) = round_half_even z 2).
    { intros z. unfold round_half_even. rewrite (Z.mul_comm 2 p), (Z.mul_comm z p), Z.div_mul_cancel_l by lia.
      replace (p * z - z / 2 * (p * 2)) with (p * (z - z / 2 * 2)) by ring.
      destruct (Z.ltb_spec (2 * (p * (z - z / 2 * 2))) (p * 2)); destruct (Z.ltb_spec (2 * (z - z / 2 * 2)) 2); try nia; try reflexivity.
      destruct (Z.ltb_spec (p * 2) (2 * (p * (z - z / 2 * 2)))); destruct (Z.ltb_spec 2 (2 * (z - z / 2 * 2))); try nia; reflexivity. }
    assert (Hs : nframes p (2 * p) (repeat (frame channels) (Z.to_nat p)) <> 1%nat).
    { unfold nframes. rewrite R. pose proof (round_bound (Zlen (repeat (frame channels) (Z.to_nat p))) 2 ltac:(lia)) as B. unfold Zlen in *. rewrite repeat_length in *. intros Q1. 
      assert (p = 3) as -> by lia. vm_compute in Q1. lia. }
    split.
    - destruct x as [|f x]; [cbn in Hx; lia|]. destruct (resampler_lengths p (2 * p) channels [f] (map (fun f => [f]) x)) as (outs & E & Hl); try lia; try exact Hs.
      + intros c Hc. change ([f] :: map (fun f => [f]) x) with (map (fun f => [f]) (f :: x)) in Hc. apply in_map_iff in Hc. destruct Hc as (g & <- & _). unfold nframes. rewrite R. cbn. discriminate.
      + exists outs. split; [exact E|]. change ([f] :: map (fun f => [f]) x) with (map (fun f => [f]) (f :: x)) in Hl. rewrite map_map in Hl.
        assert (Forall (fun o => o = []) outs) as F0.
        { apply Forall_forall. intros o Ho. apply (in_map (@length _)) in Ho. rewrite Hl in Ho. apply in_map_iff in Ho. destruct Ho as (g & Hg & _). rewrite R in Hg. cbn in Hg. destruct o; [reflexivity|discriminate]. }
        clear -F0. induction F0 as [|o os -> _ IH]; cbn [List.concat List.app]; [reflexivity|exact IH].
    - destruct (resampler_lengths p (2 * p) channels x []) as (outs & E & Hl); try lia; try exact Hs.
      + intros c [<-|[]]. unfold nframes. rewrite R. pose proof (round_bound (Zlen x) 2 ltac:(lia)) as B. unfold Zlen in *. intros Q1. lia.
      + cbn [map] in Hl. destruct outs as [|o [|? ?]]; try discriminate. exists o. split; [exact E|]. cbn [map] in Hl. injection Hl as Hl. rewrite Hl, R. pose proof (round_bound (Zlen x) 2 ltac:(lia)) as B. unfold Zlen in *. lia.
  Qed.
  (** functional.resample: samples at the rate that is asked for are returned as they are; others
      have the rounded number of frames *)
  Theorem resample_samples_same rate channels x : resample_samples zero src_new src rate rate channels x = Ok x.
  Proof. unfold resample_samples. rewrite Z.eqb_refl. reflexivity. Qed.
  Theorem resample_samples_ok new old channels x : new <> old -> old <= 256 * new -> new <= 256 * old ->
    nframes new old (repeat (frame channels) (Z.to_nat new)) <> 1%nat -> nframes new old x <> 1%nat ->
    resample_samples zero src_new src new old channels x = Ok (fitted channels (nframes new old x) (snd (src (primed new old channels) x (nframes new old x) false))).
  Proof.
    intros Hn H1 H2 Hs Hx. pose proof (resampler_runs new old channels x [] Hn H1 H2 Hs ltac:(intros c [<-|[]]; exact Hx)) as R. unfold resampler_node in R. cbn [resampler_feed run] in R. unfold resample_samples. destruct (Z.eqb_spec new old) as [E|_]; [contradiction|].
    destruct (resampler_process zero src_new src new None old channels false x) as [p|]; cbn [bind] in *; [|discriminate]. injection R as R. rewrite R. reflexivity.
  Qed.
  (** rate by rate the first second is always long enough, unless the new rate is tiny *)
  Theorem silence_long new old channels : 0 < old -> 2 * new * new > 3 * old -> nframes new old (repeat (frame channels) (Z.to_nat new)) <> 1%nat.
  Proof. intros Ho H Q1. unfold nframes in Q1. pose proof (round_bound (Zlen (repeat (frame channels) (Z.to_nat new)) * new) old Ho) as B. unfold Zlen in *. rewrite repeat_length in *. destruct (Z.leb_spec new 0); [replace (Z.to_nat new) with 0%nat in * by lia; vm_compute (Z.of_nat 0) in *; nia|]. rewrite Z2Nat.id in * by lia. nia. Qed.
End ResampleFacts.
(** a converter that keeps every second frame and says how many chunks it has seen *)
Example resampler_example :
  resampler_node 0 0 (fun (st : Z) x n (e : bool) => (st + 1, map (fun f => map (Z.add (100 * st)) f) (firstn (n - 1) x))) 4 8 1 [[[1]; [2]; [3]; [4]]; [[5]; [6]; [7]; [8]; [9]; [10]]]
    = Ok [[[101]; [0]]; [[205]; [206]; [0]]].
Proof. reflexivity. Qed.
