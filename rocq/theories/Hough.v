(** * Hough: model of /repo/src/rascal/houghtransform.py. *)

From Coq Require Import ZArith Bool List String Ascii Lia.
From Verif Require Import Num Py Np.
Import ListNotations.
Local Open Scope num_scope.

Section Hough.
  Context {A : Type} {N : Num A}.

  (** self.hough_points: an (n, 2) ndarray of (gradient, intercept); a python list
      of pairs (after loading a json file, houghtransform.py:325); or an array of
      another shape (np.vstack of two None). *)
  Inductive points : Type :=
  | HArr (l : list (A * A))
  | HList (l : list (A * A))
  | HBad.

  (** houghtransform.py:11-20: the attributes.  The histogram holds counts (stored
      as floats by numpy), one list per slope bin. *)
  Record hough : Type := mkHough {
    ho_points : option points;
    ho_lines : option (list (A * A));
    ho_hist : option (list (list nat));
    ho_xedges : option (list A);
    ho_yedges : option (list A);
    ho_min_slope : option A;
    ho_max_slope : option A;
    ho_min_intercept : option A;
    ho_max_intercept : option A
  }.

  (** houghtransform.py:11-20 __init__. *)
  Definition hough_init : hough := mkHough None None None None None None None None None.

  Definition ho_set_points (h : hough) (p : points) : hough :=
    mkHough (Some p) (ho_lines h) (ho_hist h) (ho_xedges h) (ho_yedges h)
      (ho_min_slope h) (ho_max_slope h) (ho_min_intercept h) (ho_max_intercept h).

  (** np.isfinite of an argument: None stands for something that is not a number,
      for which np.isfinite raises TypeError. *)
  Definition check_finite (v : option A) : res A :=
    match v with
    | None => Raise TypeError
    | Some a => if nisfinite a then Ok a else Raise AssertionError
    end.

  (** houghtransform.py:22-58 set_constraints. *)
  Definition set_constraints (h : hough) (min_slope max_slope min_intercept max_intercept : option A)
    : hough * res unit :=
    match bind (check_finite min_slope) (fun a => bind (check_finite max_slope) (fun b =>
          bind (check_finite min_intercept) (fun c => bind (check_finite max_intercept) (fun d =>
          Ok (a, b, c, d))))) with
    | Raise e => (h, Raise e)
    | Ok (a, b, c, d) =>
        (mkHough (ho_points h) (ho_lines h) (ho_hist h) (ho_xedges h) (ho_yedges h)
           (Some a) (Some b) (Some c) (Some d), Ok tt)
    end.

  (** houghtransform.py:78-90: the points for given limits.  Slopes in the outer
      loop (np.concatenate of the rows of y - outer(slopes, x)). *)
  Definition slope_points (lo_s hi_s lo_i hi_i : A) (pairs : list (A * A)) (num_slopes : nat)
    : list (A * A) :=
    let slopes := np_linspace lo_s hi_s num_slopes in
    let all := flat_map (fun s => map (fun p => (s, snd p -' s *' fst p)) pairs) slopes in
    filter (fun q => (lo_i <=' snd q) && (snd q <=' hi_i)) all.

  (** houghtransform.py:60-92 generate_hough_points.  x and y of different lengths
      raise (numpy's broadcasting of arrays of length one is not modelled); an
      empty x or num_slopes = 0 raises in np.concatenate / np.column_stack;
      missing limits raise TypeError. *)
  Definition generate_hough_points (h : hough) (x y : list A) (num_slopes : nat)
    : hough * res unit :=
    match ho_min_slope h, ho_max_slope h with
    | Some lo_s, Some hi_s =>
        if negb (Nat.eqb (List.length x) (List.length y)) then (h, Raise ValueError)
        else if Nat.eqb num_slopes 0 || Nat.eqb (List.length x) 0 then (h, Raise ValueError)
        else match ho_min_intercept h, ho_max_intercept h with
             | Some lo_i, Some hi_i =>
                 (ho_set_points h (HArr (slope_points lo_s hi_s lo_i hi_i (combine x y) num_slopes)),
                  Ok tt)
             | _, _ => (h, Raise TypeError)
             end
    | _, _ => (h, Raise TypeError)
    end.

  (** houghtransform.py:121-126: gradient and intercept of the line through pair i
      and a later pair. *)
  Definition line_through (p q : A * A) : A * A :=
    let g := (snd q -' snd p) /' (fst q -' fst p) in
    (g, snd q -' g *' fst q).

  (** houghtransform.py:119-126: all i < j in the order of the loop. *)
  Fixpoint lines_through (l : list (A * A)) : list (A * A) :=
    match l with
    | [] => []
    | p :: r => map (line_through p) r ++ lines_through r
    end.

  (** houghtransform.py:94-140 generate_hough_points_brute_force.  With fewer than
      two points np.concatenate of an empty list raises ValueError; a y shorter
      than x is indexed out of range; a longer y is cut. *)
  Definition generate_hough_points_brute_force (argsort : list A -> list nat) (h : hough)
      (x y : list A) : hough * res unit :=
    let pairs := gather (combine x y) (argsort x) in
    if Nat.ltb (List.length y) (List.length x) then (h, Raise IndexError)
    else if Nat.leb (List.length pairs) 1 then (h, Raise ValueError)
    else match ho_min_slope h, ho_max_slope h, ho_min_intercept h, ho_max_intercept h with
         | Some lo_s, Some hi_s, Some lo_i, Some hi_i =>
             (ho_set_points h (HArr
                (filter (fun q => ((lo_s <' fst q) && (fst q <' hi_s)) &&
                                  ((lo_i <' snd q) && (snd q <' hi_i)))
                        (lines_through pairs))), Ok tt)
         | _, _, _, _ => (h, Raise TypeError)
         end.

  (** The argument of add_hough_points: another transform, an (n, 2) ndarray, or
      anything else. *)
  Inductive add_points_arg : Type :=
  | AddHough (h : hough) | AddArray (l : list (A * A)) | AddOther.

  (** np.vstack((a, b)) of point sets: None becomes a (1,1) object array, an empty
      python list a (1,0) array; shapes that do not fit raise ValueError.  The shapes
      of the useless arrays [HBad] are not tracked. *)
  Definition vstack (a b : option points) : res points :=
    let arr (p : points) : option (list (A * A)) :=
      match p with
      | HArr l => Some l
      | HList ((_ :: _) as l) => Some l
      | HList [] | HBad => None
      end in
    match a, b with
    | None, None => Ok HBad
    | Some HBad, None | None, Some HBad | Some HBad, Some HBad => Ok HBad
    | Some (HList []), Some (HList []) => Ok HBad
    | Some p, Some q =>
        match arr p, arr q with
        | Some l, Some m => Ok (HArr (l ++ m))
        | _, _ => Raise ValueError
        end
    | _, _ => Raise ValueError
    end.

  (** houghtransform.py:142-165 add_hough_points. *)
  Definition add_hough_points (h : hough) (a : add_points_arg) : hough * res unit :=
    match (match a with
           | AddHough g => Ok (ho_points g)
           | AddArray l => Ok (Some (HArr l))
           | AddOther => Raise TypeError
           end) with
    | Raise e => (h, Raise e)
    | Ok p => match vstack (ho_points h) p with
              | Raise e => (h, Raise e)
              | Ok q => (ho_set_points h q, Ok tt)
              end
    end.

  (* ---------------------------------------------------------------- *)
  (** ** np.histogram2d (numpy, used at houghtransform.py:186) *)

  (** Outer edges: the data range; (0, 1) for no data; widened by 1/2 when all
      values are equal; ValueError when not finite. *)
  Definition outer_edges (v : list A) : res (A * A) :=
    match v with
    | [] => Ok (nZ 0, nZ 1)
    | _ => bind (np_amin v) (fun lo => bind (np_amax v) (fun hi =>
             if nisfinite lo && nisfinite hi
             then Ok (if lo ==' hi then (lo -' nlit 5 (-1), hi +' nlit 5 (-1)) else (lo, hi))
             else Raise ValueError))
    end.
  Definition bin_edges (v : list A) (n : nat) : res (list A) :=
    if Nat.eqb n 0 then Raise ValueError
    else bind (outer_edges v) (fun p => Ok (np_linspace (fst p) (snd p) (S n))).

  (** Bin number of a value: searchsorted(side="right"), the right-most edge
      belonging to the last bin; numbers count from 1. *)
  Definition bin_number (edges : list A) (v : A) : nat :=
    let k := searchsorted_right edges v in
    if v ==' last edges (nZ 0) then (k - 1)%nat else k.

  (** Counts: number of points whose bin numbers are (i+1, j+1). *)
  Definition hist_counts (xedges yedges : list A) (xb yb : nat) (pts : list (A * A))
    : list (list nat) :=
    map (fun i => map (fun j =>
           List.length (filter (fun p => Nat.eqb (bin_number xedges (fst p)) (S i) &&
                                         Nat.eqb (bin_number yedges (snd p)) (S j)) pts))
         (seq 0 yb)) (seq 0 xb).

  (* ---------------------------------------------------------------- *)

  (** houghtransform.py:194-198: positions of the bins ordered by
      argsort(hist.ravel())[::-1], unravelled. *)
  Definition sorted_bins (argsort : list A -> list nat) (hist : list (list nat)) (yb : nat)
    : list (nat * nat) :=
    map (fun k => (k / yb, k mod yb)%nat)
        (rev (argsort (map nnat (List.concat hist)))).

  (** houghtransform.py:200-210: the lines. *)
  Definition bin_lines (xedges yedges : list A) (bins : list (nat * nat)) : list (A * A) :=
    let xw := (nth 1 xedges (nZ 0) -' nth 0 xedges (nZ 0)) /' nZ 2 in
    let yw := (nth 1 yedges (nZ 0) -' nth 0 yedges (nZ 0)) /' nZ 2 in
    map (fun b => (nth (fst b) xedges (nZ 0) +' xw, nth (snd b) yedges (nZ 0) +' yw)) bins.

  (** houghtransform.py:167-210 bin_hough_points.  The attribute hist_sorted_arg is
      left out. *)
  Definition bin_hough_points (argsort : list A -> list nat) (h : hough) (xb yb : nat)
    : hough * res unit :=
    match ho_points h with
    | None => (h, Raise AssertionError)
    | Some (HList _) => (h, Raise TypeError)
    | Some HBad => (h, Raise IndexError)
    | Some (HArr pts) =>
        match bin_edges (map fst pts) xb with
        | Raise e => (h, Raise e)
        | Ok xe =>
            match bin_edges (map snd pts) yb with
            | Raise e => (h, Raise e)
            | Ok ye =>
                let hist := hist_counts xe ye xb yb pts in
                (mkHough (ho_points h) (Some (bin_lines xe ye (sorted_bins argsort hist yb)))
                   (Some hist) (Some xe) (Some ye)
                   (ho_min_slope h) (ho_max_slope h) (ho_min_intercept h) (ho_max_intercept h),
                 Ok tt)
            end
        end
    end.

  (* ---------------------------------------------------------------- *)
  (** ** Files *)

  (** Content of a file: the eight entries written by np.save (object array,
      numpy < 1.24 as required by /repo/requirements.txt), the json dictionary, or
      something else.  json keeps doubles exactly (repr round-trips). *)
  Record npy_content : Type := mkNpy {
    np_points : option points; np_hist : option (list (list nat));
    np_xedges : option (list A); np_yedges : option (list A);
    np_lims : option A * option A * option A * option A
  }.
  Record json_content : Type := mkJson {
    js_points : list (A * A); js_hist : list (list nat);
    js_xedges : list A; js_yedges : list A;
    js_lims : option A * option A * option A * option A
  }.
  Inductive file : Type := FNpy (c : npy_content) | FJson (c : json_content) | FOther.
  Definition files : Type := string -> option file.
  Definition write (fs : files) (name : string) (f : file) : files :=
    fun n => if String.eqb n name then Some f else fs n.

  (** What save returns when to_disk is False; houghtransform.py:273-289. *)
  Inductive save_result : Type :=
  | SvNone | SvNpy (c : npy_content) | SvJson (c : json_content)
  | SvBoth (c : npy_content) (d : json_content).

  Definition ho_lims (h : hough) : option A * option A * option A * option A :=
    (ho_min_slope h, ho_max_slope h, ho_min_intercept h, ho_max_intercept h).

  Definition npy_of (h : hough) : npy_content :=
    mkNpy (ho_points h) (ho_hist h) (ho_xedges h) (ho_yedges h) (ho_lims h).

  (** houghtransform.py:258-267: .tolist() of None or of a list raises
      AttributeError. *)
  Definition json_of (h : hough) : res json_content :=
    match ho_points h with
    | Some (HArr p) =>
        match ho_hist h, ho_xedges h, ho_yedges h with
        | Some hi, Some xe, Some ye => Ok (mkJson p hi xe ye (ho_lims h))
        | _, _, _ => Raise AttributeError
        end
    | Some HBad => Raise TypeError     (* not serialisable in general *)
    | _ => Raise AttributeError
    end.

  (** houghtransform.py:212-289 save, with the default delimiter "+". *)
  Definition hough_save (h : hough) (fs : files) (filename fileformat : string) (to_disk : bool)
    : files * res save_result :=
    let fmt := split_plus fileformat in
    let npy := str_in "npy" fmt in
    let json := str_in "json" fmt in
    let fs1 := if npy && to_disk then write fs (filename ++ ".npy") (FNpy (npy_of h)) else fs in
    match (if json then bind (json_of h) (fun j => Ok (Some j)) else Ok None) with
    | Raise e => (fs1, Raise e)
    | Ok oj =>
        let fs2 := match oj with
                   | Some j => if to_disk then write fs1 (filename ++ ".json") (FJson j) else fs1
                   | None => fs1
                   end in
        (fs2, Ok (if to_disk then SvNone
                  else match npy, oj with
                       | true, None => SvNpy (npy_of h)
                       | false, Some j => SvJson j
                       | true, Some j => SvBoth (npy_of h) j
                       | false, None => SvNone
                       end))
    end.

  (** filename[-k:] != suffix -> append; houghtransform.py:308-309,322-323. *)
  Definition with_suffix (filename suffix : string) : string :=
    if String.eqb (str_last (String.length suffix) filename) suffix then filename
    else (filename ++ suffix)%string.

  (** houghtransform.py:313-320 / 326-332: the assignments after reading, in
      order; [float(None)] raises TypeError, [None.astype] AttributeError. *)
  Definition load_fields (h : hough) (p : option points) (hi : option (list (list nat)))
      (xe ye : option (list A)) (lims : option A * option A * option A * option A)
    : hough * res unit :=
    let '(l1, l2, l3, l4) := lims in
    let h := mkHough p (ho_lines h) (ho_hist h) (ho_xedges h) (ho_yedges h)
               (ho_min_slope h) (ho_max_slope h) (ho_min_intercept h) (ho_max_intercept h) in
    match hi with None => (h, Raise AttributeError) | Some _ =>
    let h := mkHough p (ho_lines h) hi (ho_xedges h) (ho_yedges h)
               (ho_min_slope h) (ho_max_slope h) (ho_min_intercept h) (ho_max_intercept h) in
    match xe with None => (h, Raise AttributeError) | Some _ =>
    let h := mkHough p (ho_lines h) hi xe (ho_yedges h)
               (ho_min_slope h) (ho_max_slope h) (ho_min_intercept h) (ho_max_intercept h) in
    match ye with None => (h, Raise AttributeError) | Some _ =>
    let h := mkHough p (ho_lines h) hi xe ye
               (ho_min_slope h) (ho_max_slope h) (ho_min_intercept h) (ho_max_intercept h) in
    match l1 with None => (h, Raise TypeError) | Some _ =>
    let h := mkHough p (ho_lines h) hi xe ye l1
               (ho_max_slope h) (ho_min_intercept h) (ho_max_intercept h) in
    match l2 with None => (h, Raise TypeError) | Some _ =>
    let h := mkHough p (ho_lines h) hi xe ye l1 l2 (ho_min_intercept h) (ho_max_intercept h) in
    match l3 with None => (h, Raise TypeError) | Some _ =>
    let h := mkHough p (ho_lines h) hi xe ye l1 l2 l3 (ho_max_intercept h) in
    match l4 with None => (h, Raise TypeError) | Some _ =>
    (mkHough p (ho_lines h) hi xe ye l1 l2 l3 l4, Ok tt)
    end end end end end end end.

  (** houghtransform.py:291-339 load. *)
  Definition hough_load (h : hough) (fs : files) (filename filetype : string) : hough * res unit :=
    if String.eqb filetype "npy" then
      match fs (with_suffix filename ".npy") with
      | None => (h, Raise FileNotFoundError)
      | Some (FNpy c) => load_fields h (np_points c) (np_hist c) (np_xedges c) (np_yedges c) (np_lims c)
      | Some _ => (h, Raise ValueError)
      end
    else if String.eqb filetype "json" then
      match fs (with_suffix filename ".json") with
      | None => (h, Raise FileNotFoundError)
      | Some (FJson c) => load_fields h (Some (HList (js_points c))) (Some (js_hist c))
                            (Some (js_xedges c)) (Some (js_yedges c)) (js_lims c)
      | Some _ => (h, Raise ValueError)
      end
    else (h, Raise ValueError).
End Hough.

Arguments points A : clear implicits.
Arguments hough A : clear implicits.
Arguments add_points_arg A : clear implicits.
Arguments files A : clear implicits.
Arguments file A : clear implicits.
Arguments npy_content A : clear implicits.
Arguments json_content A : clear implicits.
