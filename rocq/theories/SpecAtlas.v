(** * SpecAtlas: what the operations on an atlas should do. *)

From Coq Require Import ZArith Bool List String Lia Arith.
From Verif Require Import Num Py Np Util SpecUtil Atlas.
Import ListNotations.

Section Spec.
  Context {A : Type} {N : Num A}.
  Local Open Scope num_scope.

  (** What a user sees of one line: element, wavelength, intensity. *)
  Definition row : Type := (string * A * A)%type.
  Definition row_of (x : atlas_line A) : row := (al_el x, al_wl x, al_int x).

  (** The rows a call of add_user_atlas supplies: equally many (at least one)
      elements, wavelengths and intensities; no intensities means all zero; with
      vacuum the wavelengths are converted to air.  A str given for the elements
      stands for its characters. *)
  Definition supplied (u : user_args A) (rows : list row) : Prop :=
    exists els ws,
      (ua_elements u = UElSeq (SeqList els) \/
       exists s, ua_elements u = UElStr s /\ els = str_chars s) /\
      ua_wavelengths u = SeqList ws /\
      List.length els = List.length ws /\ ws <> [] /\
      map (fun r => fst (fst r)) rows = els /\
      map (fun r => snd (fst r)) rows =
        (if ua_vacuum u then vacuum_to_air ws (ua_temperature u) (ua_pressure u) (ua_rh u) else ws) /\
      match ua_intensities u with
      | None => map snd rows = repeat (nZ 0) (List.length ws)
      | Some a => a = SeqList (map snd rows)
      end.

  (** An argument that is not a sequence. *)
  Definition bad_type (u : user_args A) : Prop :=
    ua_elements u = UElSeq SeqBad \/ ua_wavelengths u = SeqBad \/ ua_intensities u = Some SeqBad.

  (** Sequences of different lengths. *)
  Definition length_mismatch (u : user_args A) : Prop :=
    exists els ws,
      (ua_elements u = UElSeq (SeqList els) \/
       exists s, ua_elements u = UElStr s /\ els = str_chars s) /\
      ua_wavelengths u = SeqList ws /\
      (List.length els <> List.length ws \/
       exists ints, ua_intensities u = Some (SeqList ints) /\ List.length els <> List.length ints).

  (** In-range lines that remove_atlas_lines_range deletes: position [i] is in
      range and an even number of in-range lines stand directly before it. *)
  Definition struck {T} (f : T -> bool) (l : list T) (i : nat) : Prop :=
    (exists x, nth_error l i = Some x /\ f x = true) /\
    exists k, Nat.Even k /\ (k <= i)%nat /\
      (forall j, (i - k <= j < i)%nat -> exists y, nth_error l j = Some y /\ f y = true) /\
      (k = i \/ exists y, nth_error l (i - k - 1) = Some y /\ f y = false).

  (** [l'] is [l] without the struck positions. *)
  Definition strike {T} (f : T -> bool) (l l' : list T) : Prop :=
    exists m, List.length m = List.length l /\ l' = mask_select m l /\
      forall i, (i < List.length l)%nat -> (nth_error m i = Some false <-> struck f l i).

  (** The lines loaded for a list of elements. *)
  Inductive loaded (argsort : list A -> list nat) (cat : catalogue A) (mk : string -> load_args A)
    : list string -> list row -> Prop :=
  | loaded_nil : loaded argsort cat mk [] []
  | loaded_cons e es rows rest :
      load_calibration_lines argsort cat (mk e) = Ok rows ->
      loaded argsort cat mk es rest ->
      loaded argsort cat mk (e :: es) (map (fun r => (l_el r, l_wl r, l_int r)) rows ++ rest).

  (** The request made for element [e] when the atlas [s] is asked to add with
      arguments [a]: omitted limits are the atlas' own widened by its range
      tolerance. *)
  Definition request (s : atlas A) (a : add_args A) (e : string) : load_args A :=
    {| la_elements := [e];
       la_min_wl := oget (at_min s -' at_range_tol s) (aa_min a);
       la_max_wl := oget (at_max s +' at_range_tol s) (aa_max a);
       la_min_intensity := aa_min_intensity a;
       la_min_distance := aa_min_distance a;
       la_vacuum := aa_vacuum a;
       la_pressure := aa_pressure a;
       la_temperature := aa_temperature a;
       la_rh := aa_rh a;
       la_linelist := aa_linelist a;
       la_brightest_n := aa_brightest_n a |}.
End Spec.
Arguments row A : clear implicits.

(** ** Histories *)
Section Run.
  Context {A : Type} {N : Num A}.

  (** The public operations that change an atlas. *)
  Inductive atlas_op : Type :=
  | OpUser (u : user_args A)
  | OpAdd (a : add_args A)
  | OpRemove (w tol : A)
  | OpClear.

  Definition atlas_step (argsort : list A -> list nat) (cat : catalogue A) (s : atlas A)
      (o : atlas_op) : atlas A * res unit :=
    match o with
    | OpUser u => add_user_atlas s u
    | OpAdd a => atlas_add argsort cat s a
    | OpRemove w tol => (remove_atlas_lines_range s w tol, Ok tt)
    | OpClear => (atlas_clear s, Ok tt)
    end.

  (** State after a history (exceptions are caught by the caller, who goes on). *)
  Definition atlas_run (argsort : list A -> list nat) (cat : catalogue A) (s : atlas A)
      (h : list atlas_op) : atlas A :=
    fold_left (fun s o => fst (atlas_step argsort cat s o)) h s.

  Local Open Scope num_scope.

  (** The rows an atlas that starts empty must contain after a history. *)
  Inductive contents : list atlas_op -> list (row A) -> Prop :=
  | contents_nil : contents [] []
  | contents_clear h l : contents h l -> contents (h ++ [OpClear]) []
  | contents_user h l u rows : contents h l -> supplied u rows ->
      contents (h ++ [OpUser u]) (l ++ rows)
  | contents_user_rejected h l u : contents h l -> (forall rows, ~ supplied u rows) ->
      contents (h ++ [OpUser u]) l
  | contents_remove h l w tol l' : contents h l ->
      strike (fun r : row A => nabs (snd (fst r) -' w) <' tol) l l' ->
      contents (h ++ [OpRemove w tol]) l'.
End Run.
Arguments atlas_op A : clear implicits.
