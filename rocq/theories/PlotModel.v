(** Model of src/f4enix/output/plotter.py: the categories of a plot, the slices and their names, the images, the atlas and the
    cumulative plots.  Meshes, their cuts and the drawing itself (pyvista, matplotlib, python-docx) are parameters; numbers are
    exact. *)
From Coq Require Import Qround.
From Verif Require Import PyBase PyStr AceModel.
Open Scope nat_scope.

(** ** Categories *)
(** plotter.py 497: the labels are an array of at most ten characters each; numpy cuts longer text *)
Definition cut10 (s : str) : str := firstn 10 s.
(** plotter.py 504-505: one threshold and one category at a time, the last assignment wins *)
Fixpoint assign (v : Q) (vals : list Q) (ctgs : list str) (label : str) : str :=
  match vals, ctgs with
  | x :: vals', c :: ctgs' => assign v vals' ctgs' (if Qle_bool x v then label else cut10 c)
  | _, _ => label
  end.
(** the number of cells with a label *)
Definition cells (label : str) (labels : list str) : nat := length (filter (str_eqb label) labels).
(** plotter.py 486-516 _add_categorization: the labels of the cells, the colours to use, and the list of thresholds, that is
    reversed in place and not put back (the categories are reversed twice) *)
Definition categorize (vals : list Q) (ctgs colors : list str) (values : list Q) : res (list str * list str * list Q) :=
  do l <- of_opt IndexError (hd_error (rev ctgs));
  let labels := map (fun v => assign v (rev vals) (rev ctgs) (cut10 l)) values in
  Ok (labels, map snd (filter (fun p => 1 <? cells (fst p) labels) (combine ctgs colors)), rev vals).

(** constants.py 107-130 *)
Record scheme := { g_name : str; g_vals : list Q; g_ctgs : list str; g_colors : list str }.
Definition TID : scheme := {| g_name := s2l "TID"; g_vals := [1; 10]%Q; g_ctgs := map s2l ["< 1 Gy"; "1-10 Gy"; "> 10 Gy"]%string;
  g_colors := map s2l ["green"; "orange"; "red"]%string |}.
Definition TNF : scheme := {| g_name := s2l "TNF"; g_vals := [1 # 100; 100]%Q;
  g_ctgs := map s2l ["< 0.01 n/cm^2/s"; "0.01-100 n/cm^2/s"; "> 100 n/cm^2/s"]%string; g_colors := map s2l ["green"; "orange"; "red"]%string |}.
Definition SDDR : scheme := {| g_name := s2l "SDDR"; g_vals := [132 # 100000; 75 # 10000; 25 # 1000; 2; 100]%Q;
  g_ctgs := map s2l ["< 1.32 uSv/h"; "1.32-7.5 uSv/h"; "7.5-25 uSv/h"; "0.025-2 mSv/s"; "2-100 mSv/h"; "> 100 mSv/h"]%string;
  g_colors := map s2l ["white"; "blue"; "green"; "yellow"; "orange"; "red"]%string |}.

Section Plots.
  (** a cut of the mesh, a cut of the stl, an image *)
  Variables Cut Stl Img : Type.
  (** the values of an array on a cut *)
  Variable values : Cut -> str -> list Q.

  (** what is drawn: the cut, the array it is coloured by with its labels and colours if it is a plot by category, the stl,
      the title and the number of labels of the legend *)
  Record drawing := { w_cut : Cut; w_scalars : str; w_labels : option (list str * list str); w_stl : option Stl;
                      w_title : option str; w_nlabels : option Z }.
  Variable draw : drawing -> Img.

  (** plotter.py 382-385: the labels of the legend *)
  Definition n_labels (n_colors : Z) : option Z :=
    if ((n_colors <? 30) && (n_colors mod 2 =? 0))%Z then Some (n_colors / 2 + 1)%Z else None.
  (** plotter.py 360-370: the categories asked for, among the constants of the package *)
  Definition scheme_of (g : option str) (consts : list scheme) : res (option scheme) :=
    match g with
    | None => Ok None
    | Some n => match find (fun s => str_eqb n (g_name s)) consts with Some s => Ok (Some s) | None => Err ValueError end
    end.
  (** plotter.py 387-446 one slice: its drawing, and the thresholds left *)
  Definition plot_one (s : option scheme) (array : str) (title : option str) (nc : Z) (vals : list Q) (sl : str * Cut * option Stl) : res (drawing * list Q) :=
    let '(name, cut, stl) := sl in
    match s with
    | None => Ok ({| w_cut := cut; w_scalars := array; w_labels := None; w_stl := stl; w_title := title; w_nlabels := n_labels nc |}, vals)
    | Some s => do '(labels, colors, vals') <- categorize vals (g_ctgs s) (g_colors s) (values cut array);
        Ok ({| w_cut := cut; w_scalars := g_name s; w_labels := Some (labels, colors); w_stl := stl; w_title := title; w_nlabels := n_labels nc |}, vals')
    end.
  Fixpoint plot_all (s : option scheme) (array : str) (title : option str) (nc : Z) (vals : list Q) (slices : list (str * Cut * option Stl)) : res (list (str * Img) * list Q) :=
    match slices with
    | [] => Ok ([], vals)
    | sl :: r => do '(w, vals1) <- plot_one s array title nc vals sl;
                 do '(ims, vals2) <- plot_all s array title nc vals1 r;
                 Ok ((fst (fst sl), draw w) :: ims, vals2)
    end.
  (** the files: "{}.png" in the folder, replaced when there *)
  Definition png_path (folder name : str) : str := join_path folder (name ++ s2l ".png").
  Definition save_all (folder : option str) (ims : list (str * Img)) (disk : list (str * Img)) : list (str * Img) :=
    match folder with
    | None => disk
    | Some f => fold_left (fun d im => dset str_eqb (png_path f (fst im)) (snd im) d) ims disk
    end.
  (** the constants after the call: the thresholds of the scheme have been changed in place *)
  Definition put_vals (s : option scheme) (vals : list Q) (consts : list scheme) : list scheme :=
    match s with
    | None => consts
    | Some s => map (fun t => if str_eqb (g_name s) (g_name t) then {| g_name := g_name t; g_vals := vals; g_ctgs := g_ctgs t; g_colors := g_colors t |} else t) consts
    end.
  (** plotter.py 298-441 plot_slices: the images, the files and the constants afterwards.  The saved file is drawn again in a
      higher resolution: here it is the same image.  [is_dir] says if the folder is there. *)
  Definition plot_slices (consts : list scheme) (disk : list (str * Img)) (slices : list (str * Cut * option Stl)) (array : str)
      (folder : option (str * bool)) (nc : Z) (title : option str) (g : option str) : res (list (str * Img) * list (str * Img) * list scheme) :=
    do s <- scheme_of g consts;
    match folder with
    | Some (_, false) => Err ValueError
    | _ =>
        do '(ims, vals) <- plot_all s array title nc (match s with Some s => g_vals s | None => [] end) slices;
        Ok (ims, save_all (option_map fst folder) ims disk, put_vals s vals consts)
    end.

  (** ** Slices *)
  (** np.arange(a, b, step) *)
  Definition arange (a b step : Q) : res (list Q) :=
    if Qeq_bool step 0 then Err ZeroDivisionError
    else Ok (map (fun i => a + inject_Z (Z.of_nat i) * step)%Q (seq 0 (Z.to_nat (Qceiling ((b - a) / step))))).
  Variable cut_at : Q -> Cut.
  Variable empty : Cut -> bool.
  (** the cut of the stl by the plane of a cut of the mesh (plotter.py 464-483 _get_stl_slices) *)
  Variable stl_cut : Cut -> option Stl.
  (** round(x, 1) as text *)
  Variable show1 : Q -> str.
  Definition theta_name (a : Q) : str := s2l "theta = " ++ show1 a ++ s2l " deg".
  (** plotter.py 290-296: the names are the first angles, whatever cuts were empty *)
  Fixpoint name_all (has_stl : bool) (angles : list Q) (cuts : list Cut) : res (list (str * Cut * option Stl)) :=
    match cuts with
    | [] => Ok []
    | c :: r => do a <- of_opt IndexError (hd_error angles);
                do o <- name_all has_stl (tl angles) r;
                Ok ((theta_name a, c, if has_stl then stl_cut c else None) :: o)
    end.
  (** plotter.py 219-296 slice_toroidal, with the angles in degrees (the program goes to radians and back) *)
  Definition slice_toroidal (has_stl : bool) (inc : Q) (range : option (Q * Q)) : res (list (str * Cut * option Stl)) :=
    let (a, b) := match range with Some r => r | None => (0, 180)%Q end in
    do angles <- arange a b inc;
    name_all has_stl angles (filter (fun c => negb (empty c)) (map cut_at angles)).

  (** plotter.py 135-173 slice: one row per slice, with its name, origin and normal *)
  Variable Num : Type.
  Variable cut_by : list Num -> list Num -> Cut.
  Definition slice (has_stl : bool) (rows : list (str * list Num)) : list (str * Cut * option Stl) :=
    map (fun r => let c := cut_by (firstn 3 (snd r)) (skipn 3 (snd r)) in (fst r, c, if has_stl then stl_cut c else None)) rows.

  (** plotter.py 175-217 slice_on_axis: [along] are the n cuts made by pyvista along an axis and [center] the coordinate of the
      middle of a cut; an axis other than x, y and z is refused *)
  Variable along : nat -> ascii -> list Cut.
  Variable center : Cut -> nat -> Q.
  Definition axis_no (axis : str) : option nat :=
    match axis with
    | [c] => if Ascii.eqb c "x" then Some 0 else if Ascii.eqb c "y" then Some 1 else if Ascii.eqb c "z" then Some 2 else None
    | _ => None
    end.
  Definition slice_on_axis (has_stl : bool) (axis : str) (n : nat) : res (list (str * Cut * option Stl)) :=
    do i <- of_opt ValueError (axis_no axis);
    Ok (map (fun c => (s2l "P" ++ axis ++ s2l " = " ++ show1 (center c i), c, if has_stl then stl_cut c else None))
            (along n (hd "x"%char axis))).
End Plots.
Arguments plot_slices {Cut Stl Img}. Arguments plot_all {Cut Stl Img}. Arguments plot_one {Cut Stl}. Arguments save_all {Img}.
Arguments slice_toroidal {Cut Stl}. Arguments name_all {Cut Stl}. Arguments slice {Cut Stl}. Arguments slice_on_axis {Cut Stl}.
Arguments w_cut {Cut Stl}. Arguments w_scalars {Cut Stl}. Arguments w_labels {Cut Stl}. Arguments w_stl {Cut Stl}. Arguments w_title {Cut Stl}. Arguments w_nlabels {Cut Stl}.

(** ** Atlas *)
(** what is in the document, in order: headings with their level and pictures, given by their file or made from an image *)
Inductive piece (Img : Type) := Head (level : Z) (text : str) | FilePic (path : str) | Pic (im : Img).
Arguments Head {Img}. Arguments FilePic {Img}. Arguments Pic {Img}.
Section Atlas.
  Variable Img : Type.
  (** python-docx add_heading: a level between 0 and 9 *)
  Definition add_heading (text : str) (level : Z) (d : list (piece Img)) : res (list (piece Img)) :=
    if ((0 <=? level) && (level <=? 9))%Z then Ok (d ++ [Head level text]) else Err ValueError.
  (** plotter.py 569-590: a new atlas has its name as title *)
  Definition new_atlas (name : str) : list (piece Img) := [Head 0 name].
  (** plotter.py 600-644 add_section: the document after it and the outcome.  What was added before an error stays. *)
  Fixpoint add_images (sec : str) (level : Z) (with_name : bool) (disclaimer : option str) (ims : list (str * Img)) (d : list (piece Img)) : list (piece Img) * res unit :=
    match ims with
    | [] => (d, Ok tt)
    | (name, im) :: r =>
        let name := if with_name then name ++ s2l " - " ++ sec else name in
        let name := match disclaimer with Some x => name ++ s2l " " ++ x | None => name end in
        match add_heading name (level + 1)%Z d with
        | Ok d1 => add_images sec level with_name disclaimer r (d1 ++ [Pic im])
        | Err e => (d, Err e)
        end
    end.
  Definition add_section (sec : str) (ims : list (str * Img)) (level : Z) (with_name : bool) (disclaimer : option str) (d : list (piece Img)) : list (piece Img) * res unit :=
    match add_heading sec level d with
    | Ok d1 => add_images sec level with_name disclaimer ims d1
    | Err e => (d, Err e)
    end.

  (** the entries of the root folder, in the order of os.listdir: files, and folders with their entries (name, modification time) *)
  Inductive entry := AFile (name : str) | AFolder (name : str) (inside : list (str * Q)).
  (** sorted(paths, key=getmtime): a stable sort *)
  Fixpoint ins_time (x : str * Q) (l : list (str * Q)) : list (str * Q) :=
    match l with [] => [x] | y :: r => if Qle_bool (snd x) (snd y) then x :: l else y :: ins_time x r end.
  Definition by_time (l : list (str * Q)) : list (str * Q) := fold_right ins_time [] l.
  (** s[-3:] and s[:-4] *)
  Definition last3 (s : str) : str := skipn (length s - 3) s.
  Definition but4 (s : str) : str := firstn (length s - 4) s.
  Definition is_picture (name : str) : bool := memb str_eqb (last3 name) (map s2l ["jpg"; "png"; "tif"]%string).
  (** plotter.py 646-680 build_from_root; every picture file is taken to be readable *)
  Definition folder_pieces (root folder : str) (inside : list (str * Q)) : list (piece Img) :=
    Head 1 folder :: flat_map (fun f => if is_picture (fst f) then [Head 2 (but4 (fst f)); FilePic (join_path (join_path root folder) (fst f))] else []) (by_time inside).
  Definition build_from_root (root : str) (entries : list entry) (d : list (piece Img)) : list (piece Img) :=
    d ++ flat_map (fun e => match e with AFile _ => [] | AFolder n inside => folder_pieces root n inside end) entries.
  (** plotter.py 702-727 save: the file of the atlas *)
  Definition atlas_path (folder name : str) : str := join_path folder (name ++ s2l ".docx").
End Atlas.
Arguments add_section {Img}. Arguments add_images {Img}. Arguments build_from_root {Img}. Arguments new_atlas {Img}. Arguments folder_pieces {Img}. Arguments add_heading {Img}.

(** ** Cumulative plots *)
(** plotter.py 836-851: the lines and colours, fifty times over *)
Definition line_styles : list str := map s2l ["-"; "--"; "-."; ":"]%string.
Definition palette : list str := map s2l ["#377eb8"; "#ff7f00"; "#4daf4a"; "#f781bf"; "#a65628"; "#984ea3"; "#999999"; "#e41a1c"; "#dede00"]%string.
Definition times {A} (n : nat) (l : list A) : list A := concat (repeat l n).
(** a drawn set: the values with their weight each, the label, the line and the colour *)
Record series := { e_values : list Q; e_weight : Q; e_label : option str; e_line : str; e_color : str }.
(** plotter.py 939-961: one histogram per set *)
Fixpoint plot_sets (labels : option (list str)) (i : nat) (sets : list (list Q)) : list series * res unit :=
  match sets with
  | [] => ([], Ok tt)
  | v :: r =>
      match nth_error (times 50 line_styles) i, nth_error (times 50 palette) i with
      | Some l, Some c =>
          let (o, e) := plot_sets labels (S i) r in
          ({| e_values := v; e_weight := 1 / inject_Z (Z.of_nat (length v)); e_label := match labels with Some ls => nth_error ls i | None => None end;
              e_line := l; e_color := c |} :: o, e)
      | _, _ => ([], Err IndexError)
      end
  end.
(** plotter.py 899-961 CDFplot.plot: what is drawn, and the outcome *)
Definition cdf_plot (labels : option (list str)) (sets : list (list Q)) : list series * res unit :=
  match labels with
  | Some ls => if length ls =? length sets then plot_sets labels 0 sets else ([], Err ValueError)
  | None => plot_sets labels 0 sets
  end.
