(** C105: what a rainbowgram shows. *)
From Verif Require Import PyBase PyMore Spectral TimeStretch Rainbow RainbowProofs.
From Coq Require Import Reals.
Local Open Scope R_scope.
---
C105_picture = picture
C105_too_small = too_small_raises
C105_unwrap_turns = unwrap_turns
C105_unwrap_jumps = unwrap_jumps
C105_unwrap_recovers = unwrap_recovers
C105_gradient = gradient_linear
C105_gradient_chirp = gradient_chirp
C105_gradient_shift = gradient_shift
C105_unit_scale = unit_scale_value
C105_brightness = brightness_order
C105_brightness_real = brightness_real
C105_brightness_refuted = brightness_refuted
C105_hue_advance = hue_advance
C105_hue_steady = hue_steady
C105_hue_alike_refuted = hue_alike_refuted
C105_hue_loudness = hue_loudness
C105_example = quarter_example
C105_experiment_scale = experiment_scale_ok
C105_experiment_scale_refuted = experiment_scale_refuted
C105_experiment_empty = experiment_scale_empty
C105_experiment_example = experiment_example
