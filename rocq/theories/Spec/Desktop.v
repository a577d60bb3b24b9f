(** Specification for C71: what a frame of a desktop image shows, and the keys of frames. *)
From Verif.Base Require Export Py Val Numpy.
From Verif.Model Require Import Desktop.

(** an array shows a frame: brightness by [line; sample], colours and other channels by
    [channel; line; sample] *)
Inductive shows : frame -> arr Z -> Prop :=
| shows_palette h w colour palette a :
    shape a = [3; h; w] ->
    (forall y x r g b, y < h -> x < w -> nth_error palette (colour y x) = Some (r, g, b) ->
       at_ a [0; y; x] = r /\ at_ a [1; y; x] = g /\ at_ a [2; y; x] = b) ->
    shows (Palette h w colour palette) a
| shows_brightness h w p a :
    shape p = [h; w] -> shape a = [h; w] -> (forall y x, y < h -> x < w -> at_ a [y; x] = at_ p [y; x]) ->
    shows (Pixels p) a
| shows_channels h w c p a :
    shape p = [h; w; c] -> shape a = [c; h; w] ->
    (forall k y x, k < c -> y < h -> x < w -> at_ a [k; y; x] = at_ p [y; x; k]) ->
    shows (Pixels p) a.
(** frames are images: of two axes, or three with channels *)
Definition is_image (f : frame) : Prop :=
  match f with Palette _ _ _ _ => True | Pixels p => length (shape p) = 2 \/ length (shape p) = 3 end.

(** characters that do not go into keys *)
Definition tidy (s t : str) : Prop :=
  Forall2 (fun c d => (In c $"() " /\ d = "_"%char) \/ (~ In c $"() " /\ d = c)) s t.
(** the key of frame [i] *)
Inductive frame_key (f : image_file) : nat -> str -> Prop :=
| only_frame : length (i_pixels f) = 1 -> frame_key f 0 $"IMAGE"
| animation i : 1 < length (i_pixels f) -> i_format f = $"GIF" \/ i_format f = $"WEBP" -> i < length (i_pixels f) ->
    frame_key f i ($"FRAME_" ++ str_of_nat i)
| primary_picture : 1 < length (i_pixels f) -> i_format f = $"MPO" -> frame_key f 0 $"IMAGE"
| other_picture i t t' : 1 < length (i_pixels f) -> i_format f = $"MPO" -> 0 < i < length (i_pixels f) ->
    nth_error (i_mptypes f) i = Some t -> tidy t t' -> frame_key f i (t' ++ $"_" ++ str_of_nat i).
(** files that can be opened: of one frame, animations, and MPO files (a type for each
    picture) whose first picture is the primary one *)
Definition supported (f : image_file) : Prop :=
  i_pixels f <> [] /\ Forall is_image (i_pixels f) /\
  (i_frames f = Some (length (i_pixels f)) \/ (i_frames f = None /\ length (i_pixels f) = 1)) /\
  (length (i_pixels f) = 1 \/ i_format f = $"GIF" \/ i_format f = $"WEBP" \/
   (i_format f = $"MPO" /\ length (i_mptypes f) = length (i_pixels f) /\
    nth_error (i_mptypes f) 0 = Some $"Baseline MP Primary Image")).
