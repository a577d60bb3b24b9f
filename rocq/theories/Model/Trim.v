(** Model of pdr/parselabel/utils.py: finding the end of an attached label. *)
From Verif.Base Require Import Py.

Definition NUL : ascii := "000"%char.
Definition SP : ascii := " "%char.

(** A regular expression without captures, as a function: the length of the
    (backtracking, leftmost-choice) match at the start of a text, if any. *)
Definition matcher := str -> option nat.

(** number of leading spaces *)
Fixpoint leading_spaces (s : str) : nat :=
  match s with
  | c :: s' => if Ascii.eqb c SP then S (leading_spaces s') else 0%nat
  | [] => 0%nat
  end.
(** the tail  [ {0,8}(\r| {8})]: tries [n] spaces, then fewer *)
Fixpoint try_spaces (n : nat) (s : str) : option nat :=
  let after := skipn n s in
  if startswith [CR] after then Some (n + 1)%nat
  else if startswith (repeat SP 8) after then Some (n + 8)%nat
  else match n with O => None | S n' => try_spaces n' s end.
(** utils.py:9 re.compile(b"\nEND {0,8}(\r| {8})") *)
Definition ending_pvl : matcher := fun s =>
  if startswith (NL :: $"END") s then
    let s' := skipn 4 s in
    match try_spaces (Nat.min 8 (leading_spaces s')) s' with
    | Some n => Some (4 + n)%nat
    | None => None
    end
  else None.
(** utils.py:10 three null bytes *)
Definition ending_null : matcher := fun s =>
  if startswith [NUL; NUL; NUL] s then Some 3%nat else None.
(** utils.py:11 b"\nEND\n" *)
Definition ending_change : matcher := fun s =>
  if startswith (NL :: $"END" ++ [NL]) s then Some 5%nat else None.
(** utils.py:8-12 KNOWN_LABEL_ENDINGS *)
Definition KNOWN_LABEL_ENDINGS : list matcher := [ending_pvl; ending_null; ending_change].

(** [re.search(p, s).span()[1]]: leftmost match *)
Fixpoint search_end (p : matcher) (s : str) : option nat :=
  match p s with
  | Some n => Some n
  | None => match s with
            | [] => None
            | _ :: s' => match search_end p s' with
                         | Some n => Some (S n)
                         | None => None
                         end
            end
  end.
(** the for-loop over the endings *)
Fixpoint first_ending (ps : list matcher) (s : str) : option nat :=
  match ps with
  | [] => None
  | p :: ps' => match search_end p s with
                | Some n => Some n
                | None => first_ending ps' s
                end
  end.

(** utils.py:32 50 * 1024; a section-free parameter [csize] is used so that the
    theorems hold for every buffer size *)
Definition CHUNK : nat := N.to_nat (50 * 1024)%N.

(** utils.py:26-41 [_scan_to_end_of_label] after the head [text] has been read;
    [rest] is what the stream still holds.  InvalidAttachedLabel is a subclass
    of ValueError.  Fuel: one unit per chunk read. *)
Fixpoint scan (csize max_size : nat) (raise_no_ending : bool)
  (fuel length_ : nat) (text rest : str) : res str :=
  match fuel with
  | O => Err OutOfFuel
  | S f =>
      let finish := if raise_no_ending then Err ValueError else Ok text in
      if (length_ <? max_size)%nat then
        match firstn csize rest with
        | [] => finish
        | chunk =>
            match first_ending KNOWN_LABEL_ENDINGS chunk with
            | Some n => Ok (text ++ firstn n chunk)
            | None => scan csize max_size raise_no_ending f (length_ + csize)
                           (text ++ chunk) (skipn csize rest)
            end
        end
      else finish
  end.

Definition is_ascii_byte (c : ascii) : bool := (N_of_ascii c <? 128)%N.

(** utils.py:44-71 [trim_label] up to decoding: 20 bytes are read, checked in
    strict mode, and the rest is scanned. *)
Definition trim_bytes (csize max_size : nat) (strict raise_no_ending : bool)
  (file : str) : res str :=
  let head := firstn 20 file in
  if strict && negb (forallb is_ascii_byte head) then Err ValueError
  else scan csize max_size raise_no_ending (S (length file)) 0 head (skipn 20 file).
(** utils.py:66-71; [decode] is [bytes.decode] with the chosen error policy *)
Definition trim_label (decode : str -> res str) (csize max_size : nat)
  (strict raise_no_ending : bool) (file : str) : res str :=
  do t <- trim_bytes csize max_size strict raise_no_ending file; decode t.
