(** nidn/fdtd/grid.py: [Grid.save_simulation] (407-439), [Grid.generate_video]
    (441-488) and [Grid.save_data] (490-505): storing the readings of the
    detectors ("grid").

    Simplifications: the file system is that of Model_Runs.v; a stored array is the
    list of its samples (the nested lists of a block are flattened, as in
    Model_FDTD.v); the conversion of readings to numpy arrays always works; images
    and videos have no content. *)
From Coq Require Import Reals String Ascii List Bool Arith DecimalString.
From Verif Require Import Base Model_FDTD Model_Register Model_Runs.
Import ListNotations.
Open Scope nat_scope.
Open Scope string_scope.

(** The arrays of a .npz file by name. *)
Definition readings := list (string * list (list vec)).
Inductive stored := Readings (r : readings) | Frame | Video.

(** A simulation and the world around it: the grid, name and class of the
    detectors in [grid.detectors], [grid.folder], [grid.full_sim_name], the
    working directory and the files. *)
Record session := mkSession {
  ss_grid : grid; ss_dets : list (option string * det_kind);
  ss_folder : option place; ss_sim : string; ss_cwd : place; ss_files : files stored }.

Inductive failure := Raised (e : exn) | FileError.

(** ** [grid.save_simulation] *)

(** str(n) *)
Definition dec (n : nat) : string := NilZero.string_of_uint (Nat.to_uint n).
(** grid 417-429: the clock is read six times; [now i] is what the i-th reading
    gives. *)
Definition stamp (now : nat -> time) : string :=
  dec (year (now 0)) ++ "-" ++ dec (month (now 1)) ++ "-" ++ dec (day (now 2)) ++ "-"
  ++ dec (hour (now 3)) ++ "-" ++ dec (minute (now 4)) ++ "-" ++ dec (second (now 5)).
(** grid 431-432 *)
Definition full_name (sim_name : option string) (now : nat -> time) : string :=
  match sim_name with None => stamp now | Some n => stamp now ++ " (" ++ n ++ ")" end.
(** [os.path.abspath] of a relative path with these parts *)
Fixpoint absolute (pos : place) (cs : list string) : place :=
  match cs with
  | [] => pos
  | c :: r => if is_dot c then absolute pos r
              else if String.eqb c ".." then absolute (tl pos) r
              else absolute (c :: pos) r
  end.
(** grid 433-435 *)
Definition sim_folder (cwd : place) (full : string) : place :=
  absolute cwd (parts ("fdtd_output/" ++ "fdtd_output_" ++ full)).
(** Setting an attribute the grid may not have yet. *)
Definition set_attr (n : string) (g : grid) : grid :=
  mkGrid (g_N g) (g_spacing g) (g_courant g) (g_time_step g)
         (g_E g) (g_H g) (g_abs g) (g_ie g) (g_im g) (g_steps g)
         (g_sources g) (g_boundaries g) (g_detectors g) (g_objects g)
         (if has_attr g n then g_attrs g else n :: g_attrs g).
(** grid 407-439 *)
Definition save_simulation (sim_name : option string) (now : nat -> time) (s : session) : session * option failure :=
  let (fs1, made) := mkdirs (ss_files s) (ss_cwd s) ["fdtd_output"] in
  if negb made then (mkSession (ss_grid s) (ss_dets s) (ss_folder s) (ss_sim s) (ss_cwd s) fs1, Some FileError) else
  let full := full_name sim_name now in
  let folder := sim_folder (ss_cwd s) full in
  let (fs2, made2) := mkdirs fs1 [] (rev folder) in
  (mkSession (set_attr "full_sim_name" (ss_grid s)) (ss_dets s) (Some folder) full (ss_cwd s) fs2,
   if made2 then None else Some FileError).

(** ** [grid.save_data] *)

(** dic[key] = value *)
Fixpoint dict_set (k : string) (v : list (list vec)) (d : readings) : readings :=
  match d with
  | [] => [(k, v)]
  | (k', v') :: r => if String.eqb k k' then (k', v) :: r else (k', v') :: dict_set k v r
  end.
(** [detector_values()["E"]] and ["H"] (detectors.py 137-139, 278-280) of a line
    or block detector; one whose registration raised has its empty lists. *)
Definition records_E (d : detector) : list (list vec) :=
  match d with FieldDetector _ Es _ => Es | _ => [] end.
Definition records_H (d : detector) : list (list vec) :=
  match d with FieldDetector _ _ Hs => Hs | _ => [] end.
(** grid 502-504; a current detector has neither "E" nor "H" (detectors.py
    496-498), and the right-hand side is evaluated first. *)
Fixpoint collect (l : list ((option string * det_kind) * detector)) (dic : readings) : res readings :=
  match l with
  | [] => Ok dic
  | ((_, DCurrent), _) :: _ => Err KeyError
  | ((None, _), _) :: _ => Err TypeError
  | ((Some n, _), d) :: r =>
      collect r (dict_set (n ++ " (H)") (records_H d) (dict_set (n ++ " (E)") (records_E d) dic))
  end.
(** grid 490-505 *)
Definition save_data (s : session) : session * option failure :=
  match ss_folder s with
  | None => (s, Some (Raised PlainException))
  | Some folder =>
    match collect (combine (ss_dets s) (g_detectors (ss_grid s))) [] with
    | Err e => (s, Some (Raised e))
    | Ok dic =>
      let p := "detector_readings.npz" :: folder in
      match ss_files s folder, ss_files s p with
      | Some Dir, Some Dir => (s, Some FileError)
      | Some Dir, _ =>
          (mkSession (ss_grid s) (ss_dets s) (ss_folder s) (ss_sim s) (ss_cwd s)
                     (put p (File (Some (Readings dic))) (ss_files s)), None)
      | _, _ => (s, Some FileError)
      end
    end
  end.

(** ** [grid.generate_video] *)

(** What calling ffmpeg does: it is missing, fails (without leaving anything), or
    writes the video. *)
Inductive ffmpeg := Missing | Fails | Writes.
Definition ends_png (c : string) : bool :=
  let n := String.length c in (4 <=? n)%nat && String.eqb (substring (n - 4) 4 c) ".png".
(** [glob("*.png")] in a folder; hidden files do not match. *)
Definition is_frame (folder p : place) : bool :=
  match p with
  | c :: q => place_eqb q folder && ends_png c && negb (String.prefix "." c)
  | [] => false
  end.
(** grid 441-488.  The constructor of [CalledProcessError] in line 478 lacks an
    argument, so that TypeError is raised.  (No directory in the folder has a name
    ending in .png.) *)
Definition generate_video (delete_frames : bool) (how : ffmpeg) (s : session) : session * option failure :=
  match ss_folder s with
  | None => (s, Some (Raised PlainException))
  | Some folder =>
    match ss_files s folder with
    | Some Dir =>
      let at_ cwd fs := mkSession (ss_grid s) (ss_dets s) (ss_folder s) (ss_sim s) cwd fs in
      match how with
      | Writes =>
          let fs1 := put (absolute folder (parts ("fdtd_sim_video_" ++ ss_sim s ++ ".mp4"))) (File (Some Video)) (ss_files s) in
          let fs2 := if delete_frames then (fun p => if is_frame folder p then None else fs1 p) else fs1 in
          (at_ (ss_cwd s) fs2, None)
      | _ => (at_ folder (ss_files s), Some (Raised TypeError))
      end
    | _ => (s, Some FileError)
    end
  end.

(** ** Histories *)

Inductive op :=
| Assign (key : list pykey) (c : component)
| Run (n : nat)
| ResetGrid
| SaveSimulation (sim_name : option string) (now : nat -> time)
| SaveData
| GenerateVideo (delete_frames : bool) (how : ffmpeg).

Definition with_grid (g : grid) (ds : list (option string * det_kind)) (s : session) : session :=
  mkSession g ds (ss_folder s) (ss_sim s) (ss_cwd s) (ss_files s).
(** The detector a registration appends to [grid.detectors], even if it raises
    later (detectors.py 52, 180, 340); a key of the wrong length raises before. *)
Definition appended (key : list pykey) (c : component) : list (option string * det_kind) :=
  match pad_key key, c with
  | Ok _, CDetector k nm => [(nm, k)]
  | _, _ => []
  end.
Definition perform (o : op) (s : session) : option (session * option failure) :=
  match o with
  | Assign key c =>
      let (g, e) := setitem key c (ss_grid s) in
      Some (with_grid g (ss_dets s ++ appended key c)%list s, option_map Raised e)
  | Run n => match run_steps n (ss_grid s) with Ok g => Some (with_grid g (ss_dets s) s, None) | Err _ => None end
  | ResetGrid => Some (with_grid (reset (ss_grid s)) (ss_dets s) s, None)
  | SaveSimulation n now => Some (save_simulation n now s)
  | SaveData => Some (save_data s)
  | GenerateVideo d how => Some (generate_video d how s)
  end.
(** A history in which exceptions are caught; it is not defined if a step raises,
    as what such a step leaves behind is not modelled. *)
Fixpoint play (l : list op) (s : session) : option session :=
  match l with
  | [] => Some s
  | o :: r => match perform o s with Some (s', _) => play r s' | None => None end
  end.
(** A history in which nothing raises. *)
Fixpoint play_clean (l : list op) (s : session) : option session :=
  match l with
  | [] => Some s
  | o :: r => match perform o s with Some (s', None) => play_clean r s' | _ => None end
  end.
Definition start (g : grid) (cwd : place) (fs : files stored) : session := mkSession g [] None "" cwd fs.
