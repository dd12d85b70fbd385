(** * Atlas: model of /repo/src/rascal/atlas.py. *)

From Coq Require Import ZArith Bool List String Lia.
From Verif Require Import Num Py Np Util.
Import ListNotations.
Local Open Scope num_scope.

Section Atlas.
  Context {A : Type} {N : Num A}.

  (** atlas.py:6-11 AtlasLine.  The source is None for user lines (atlas.py:280)
      and "NIST" for loaded ones (atlas.py:203). *)
  Record atlas_line : Type := mkAL {
    al_wl : A; al_el : string; al_int : A; al_src : option string
  }.

  (** atlas.py:74-79: the attributes of an Atlas that are read again later
      (min_intensity and min_distance are stored but never read and are left
      out). *)
  Record atlas : Type := mkAtlas {
    at_lines : list atlas_line;
    at_min : A;
    at_max : A;
    at_range_tol : A
  }.

  Definition at_set_lines (s : atlas) (l : list atlas_line) : atlas :=
    mkAtlas l (at_min s) (at_max s) (at_range_tol s).

  (** The elements argument: None, a str, or a list of str; atlas.py:81,177-181. *)
  Inductive elements_arg : Type := ElNone | ElStr (s : string) | ElList (l : list string).

  (** The arguments of Atlas.add, atlas.py:96-109. *)
  Record add_args : Type := mkAddArgs {
    aa_elements : elements_arg;
    aa_min : option A;
    aa_max : option A;
    aa_min_intensity : thr A;
    aa_min_distance : A;
    aa_vacuum : bool;
    aa_pressure : A;
    aa_temperature : A;
    aa_rh : A;
    aa_linelist : linelist_arg;
    aa_brightest_n : option nat      (* atlas.py:108, default 1000 *)
  }.

  (** atlas.py:177-181. *)
  Definition elements_of (e : elements_arg) : list string :=
    match e with ElNone => [] | ElStr s => [s] | ElList l => l end.

  (** atlas.py:182-198: the arguments passed on for one element. *)
  Definition add_load_args (a : add_args) (lo hi : A) (element : string) : load_args A :=
    mkLoadArgs [element] lo hi (aa_min_intensity a) (aa_min_distance a) (aa_vacuum a)
      (aa_pressure a) (aa_temperature a) (aa_rh a) (aa_linelist a) (aa_brightest_n a).

  (** atlas.py:200-204: the appended objects. *)
  Definition nist_lines (rows : list (line A)) : list atlas_line :=
    map (fun r => mkAL (l_wl r) (l_el r) (l_int r) (Some "NIST"%string)) rows.

  (** atlas.py:181-204: the loop over the elements.  Lines loaded for earlier
      elements stay when a later element raises. *)
  Fixpoint add_loop (argsort : list A -> list nat) (cat : catalogue A) (a : add_args)
      (lo hi : A) (els : list string) (lines : list atlas_line)
    : list atlas_line * res unit :=
    match els with
    | [] => (lines, Ok tt)
    | e :: r =>
        match load_calibration_lines argsort cat (add_load_args a lo hi e) with
        | Raise ex => (lines, Raise ex)
        | Ok rows => add_loop argsort cat a lo hi r (lines ++ nist_lines rows)
        end
    end.

  (** atlas.py:96-204 Atlas.add. *)
  Definition atlas_add (argsort : list A -> list nat) (cat : catalogue A) (s : atlas)
      (a : add_args) : atlas * res unit :=
    let lo := match aa_min a with Some v => v | None => at_min s -' at_range_tol s end in
    let hi := match aa_max a with Some v => v | None => at_max s +' at_range_tol s end in
    if negb (nisfinite lo) then (s, Raise ValueError)
    else if negb (nisfinite hi) then (s, Raise ValueError)
    else
      let (l, r) := add_loop argsort cat a lo hi (elements_of (aa_elements a)) (at_lines s) in
      (at_set_lines s l, r).

  (** atlas.py:15-94 Atlas.__init__: the limits are passed on explicitly, and
      brightest_n_lines keeps its default 1000.  The object does not come to
      exist when the constructor raises. *)
  Definition atlas_init (argsort : list A -> list nat) (cat : catalogue A)
      (elements : elements_arg) (lo hi range_tol : A) (min_intensity : thr A)
      (min_distance : A) (vacuum : bool) (pressure temperature rh : A) (ll : linelist_arg)
    : res atlas :=
    let s := mkAtlas [] lo hi range_tol in
    match elements with
    | ElNone => Ok s
    | _ =>
        let (s', r) := atlas_add argsort cat s
          (mkAddArgs elements (Some lo) (Some hi) min_intensity min_distance vacuum pressure
             temperature rh ll (Some 1000%nat)) in
        bind r (fun _ => Ok s')
    end.

  (** An argument that should be a sequence: a list (or an iterable such as an
      ndarray, turned into a list), or something list() rejects with TypeError
      (a number). *)
  Inductive seq_arg (T : Type) : Type := SeqList (l : list T) | SeqBad.
  Arguments SeqList {T} l.
  Arguments SeqBad {T}.

  Definition seq_list {T} (a : seq_arg T) : res (list T) :=
    match a with SeqList l => Ok l | SeqBad => Raise TypeError end.

  (** atlas.py:246-247: the elements argument of add_user_atlas; list() of a str
      gives its characters. *)
  Inductive user_elements : Type := UElStr (s : string) | UElSeq (a : seq_arg string).
  Definition user_elements_list (u : user_elements) : res (list string) :=
    match u with UElStr s => Ok (str_chars s) | UElSeq a => seq_list a end.

  (** The arguments of add_user_atlas, atlas.py:206-215. *)
  Record user_args : Type := mkUserArgs {
    ua_elements : user_elements;
    ua_wavelengths : seq_arg A;
    ua_intensities : option (seq_arg A);
    ua_vacuum : bool;
    ua_pressure : A;
    ua_temperature : A;
    ua_rh : A
  }.

  (** atlas.py:277-280: the appended objects. *)
  Definition user_lines (els : list string) (wls ints : list A) : list atlas_line :=
    map (fun p => mkAL (snd (fst p)) (fst (fst p)) (snd p) None) (combine (combine els wls) ints).

  (** atlas.py:206-280 add_user_atlas. *)
  Definition add_user_atlas (s : atlas) (u : user_args) : atlas * res unit :=
    match user_elements_list (ua_elements u) with
    | Raise e => (s, Raise e)
    | Ok els =>
    match seq_list (ua_wavelengths u) with
    | Raise e => (s, Raise e)
    | Ok wls =>
    match (match ua_intensities u with
           | None => Ok (map (fun _ => nZ 0) wls)
           | Some a => seq_list a
           end) with
    | Raise e => (s, Raise e)
    | Ok ints =>
        if negb (Nat.eqb (List.length els) (List.length wls)) then (s, Raise AssertionError)
        else if negb (Nat.eqb (List.length els) (List.length ints)) then (s, Raise AssertionError)
        else
          let wls := if ua_vacuum u
                     then vacuum_to_air wls (ua_temperature u) (ua_pressure u) (ua_rh u)
                     else wls in
          match py_min wls with
          | Raise e => (s, Raise e)
          | Ok mn =>
              match py_max wls with
              | Raise e => (mkAtlas (at_lines s) mn (at_max s) (at_range_tol s), Raise e)
              | Ok mx =>
                  (mkAtlas (at_lines s ++ user_lines els wls ints) mn mx (at_range_tol s), Ok tt)
              end
          end
    end end end.

  (** atlas.py:282-312 get_lines, get_elements, get_intensities. *)
  Definition get_lines (s : atlas) : list A := map al_wl (at_lines s).
  Definition get_elements (s : atlas) : list string := map al_el (at_lines s).
  Definition get_intensities (s : atlas) : list A := map al_int (at_lines s).

  (** atlas.py:327-329: [for line in lines: if ...: lines.remove(line)].  The
      iterator holds the index [i] of the next element of the list that is being
      shortened; lines are distinct objects without __eq__, so remove() deletes
      the very object at [i].  [fuel] bounds the number of turns; the list length
      suffices. *)
  Fixpoint remove_loop (fuel : nat) (inr : atlas_line -> bool) (i : nat) (l : list atlas_line)
    : list atlas_line :=
    match fuel with
    | O => l
    | S k =>
        match nth_error l i with
        | None => l
        | Some x => if inr x then remove_loop k inr (S i) (np_delete l i)
                    else remove_loop k inr (S i) l
        end
    end.

  (** atlas.py:314-329 remove_atlas_lines_range. *)
  Definition in_removed_range (w tol : A) (x : atlas_line) : bool :=
    nabs (al_wl x -' w) <' tol.
  Definition remove_atlas_lines_range (s : atlas) (w tol : A) : atlas :=
    at_set_lines s
      (remove_loop (List.length (at_lines s)) (in_removed_range w tol) 0 (at_lines s)).

  (** atlas.py:347-353 clear. *)
  Definition atlas_clear (s : atlas) : atlas := at_set_lines s [].

  (** atlas.py:355 __len__. *)
  Definition atlas_len (s : atlas) : nat := List.length (at_lines s).
End Atlas.

Arguments atlas_line A : clear implicits.
Arguments atlas A : clear implicits.
Arguments add_args A : clear implicits.
Arguments user_args A : clear implicits.
Arguments SeqList {T} l.
Arguments SeqBad {T}.
