(** Factors time_stretch (zounds/spectral/functional.py:94-186) refuses. *)
From Verif Require Import PyBase PyFacts PyMore Time Freq FreqProofs FreqScaleProofs FreqDim FreqDimProofs Axis Windowed NdWindow Spectral Resample Stft StftProofs TimeStretch TimeStretchProofs TimeStretchProofs2 TimeStretchProofs3.
From Coq Require Import Reals Lra.
Local Open Scope R_scope.

(** zero, and negative factors for which numpy is asked for a negative number of samples *)
Lemma stretch_refuses (t : timedim) r (sr : samplerate) width W H (rows : list (list R)) factor :
  In r standard_rates -> t_freq t = (10 ^ 12 / r)%Z -> t_dur t = t_freq t ->
  samples_in (t_freq t) (sr_dur sr) = Z.of_nat W -> samples_in (t_freq t) (sr_freq sr) = Z.of_nat H ->
  (2 <= W <= width)%nat -> (1 <= H)%nat -> (0 < sr_dur sr)%Z -> rows <> [] ->
  (factor = 0 -> time_stretch2 DIdent (DTime t) factor (Some sr) width rows = Raise ZeroDivisionError) /\
  (- INR width <= factor < 0 -> time_stretch2 DIdent (DTime t) factor (Some sr) width rows = Raise ValueError).
Proof.
  intros Hr Ht Hd HW HH HWw HH1 Pd Hne.
  destruct (stft2_rows t r sr width rows W H Hr Ht Hd HW HH ltac:(lia) HH1 Pd Hne) as [ds E].
  unfold time_stretch2. destruct (discrete_samples sr (t_freq t) (t_dur t)) as [hop w]. rewrite E. cbn [bind]. split.
  - intros ->. destruct (Req_EM_T 0 0); [reflexivity|lra].
  - intros [_ N]. destruct (Req_EM_T factor 0); [lra|]. destruct (Rlt_dec factor 0); [reflexivity|lra].
Qed.

Example refuses_example : time_stretch2 DIdent (DTime at_11025) (- 1) (Some frames_4_2) 9 [[1; 2; 3; 4; 5; 6; 7; 8; 9]] = Raise ValueError
  /\ time_stretch2 DIdent (DTime at_11025) 0 (Some frames_4_2) 9 [[1; 2; 3; 4; 5; 6; 7; 8; 9]] = Raise ZeroDivisionError.
Proof.
  split; eapply (stretch_refuses at_11025 11025 frames_4_2 9 4 2); try reflexivity; try lia; try discriminate; try (cbn; tauto); cbn [INR]; lra.
Qed.
