(** Model of the storage adapters: mabel/adapters/disk, mabel/adapters/minio and
    mabel/adapters/google (writers and readers of blobs), and of the attributes that
    mabel/data/writers/internals/base_inner_writer.py gives them. *)
From Verif.Base Require Import Py.
From Verif.Model Require Import Paths Writers.

Inductive kind := Disk | MinIo | Gcs.

(** ** What is stored.  MinIO and Google Cloud Storage hold objects by bucket and key.  A file system
    holds files by path: here the bucket is empty and the key is the path as pathlib writes it.
    Simplifications: "..", links, permissions and a file where a folder is needed are not modelled;
    buckets exist; no two clients write at the same time. *)
Definition place := (str * str)%type.
Definition stored := list (place * str).
Definition place_eqb (a b : place) : bool := str_eqb (fst a) (fst b) && str_eqb (snd a) (snd b).
Fixpoint lookup (p : place) (s : stored) : option str :=
  match s with
  | [] => None
  | (q, v) :: s' => if place_eqb p q then Some v else lookup p s'
  end.
(** storing at a place replaces what was there *)
Definition put (p : place) (v : str) (s : stored) : stored :=
  (p, v) :: filter (fun e => negb (place_eqb p (fst e))) s.
(** the file a path names *)
Definition file_of (path : str) : place := ([], pp_str (pp_parse path)).

(** ** Writers: base_inner_writer.py:20-37 *)
Record inner := mkInner { i_bucket : str; i_filename : str; i_without_bucket : str }.
(** minio_writer.py:25 drops the bucket at once, google_cloud_storage_writer.py only in commit *)
Definition new_inner (k : kind) (f : format) (ext dataset : str) : result inner :=
  let* (bucket, path, _, _) := get_parts dataset in
  let bucket := if str_eqb bucket $"/" then [] else bucket in
  let path := if str_eqb path $"/" then [] else path in
  let without := path ++ $"{stem}" ++ extension f ext in
  Ok (mkInner bucket (match k with MinIo => without | _ => bucket ++ $"/" ++ without end) without).

(** the name to commit to: the one given (unless it is empty), or a new one *)
Definition name_for (i : inner) (override : option str) (node : str) (time_ns : N) : str :=
  match override with
  | Some ((_ :: _) as n) => n
  | _ => blob_name (i_filename i) node time_ns
  end.
(** disk_writer.py:13-31, minio_writer.py:27-37, google_cloud_storage_writer.py:36-63: the name
    returned, the writer afterwards and what is stored *)
Definition commit (k : kind) (i : inner) (override : option str) (node : str) (time_ns : N) (data : str)
           (s : stored) : result (str * inner * stored) :=
  match k with
  | Disk =>
      let name := name_for i override node time_ns in
      let* _ := get_parts name in
      Ok (name, i, put (file_of name) data s)
  | MinIo =>
      let name := name_for i override node time_ns in
      Ok (name, i, put (i_bucket i, name) data s)
  | Gcs =>
      let i := mkInner (i_bucket i) (i_without_bucket i) (i_without_bucket i) in
      let name := name_for i override node time_ns in
      Ok (name, i, put (i_bucket i, name) data s)
  end.
(** batch_writer.py:128-133 *)
Definition mark_complete (k : kind) (i : inner) (node : str) (time_ns : N) (s : stored)
  : result (str * inner * stored) :=
  commit k i (Some (completion_path (i_filename i))) node time_ns [] s.

(** ** Readers *)
(** path.rglob("*") for files: what lies below a folder *)
Fixpoint below (a b : list str) : bool :=
  match a, b with
  | [], _ :: _ => true
  | x :: a', y :: b' => str_eqb x y && below a' b'
  | _, [] => false
  end.
Definition under (path : str) (file : str) : bool :=
  let p := pp_parse path in let q := pp_parse file in
  str_eqb (fst p) (fst q) && below (snd p) (snd q).
(** the objects of a bucket whose key starts with [prefix], folder markers left out *)
Definition keys_at (bucket prefix : str) (s : stored) : list str :=
  flat_map (fun e : place * str =>
              let (b, key) := fst e in
              if str_eqb b bucket && startswith prefix key && negb (endswith $"/" key)
              then [bucket ++ $"/" ++ key] else []) s.
(** disk_reader.py:12-16, minio_reader.py:36-46, google_cloud_storage_reader.py:39-51.
    [path] is the text of the pathlib.Path given; [hours] is date_range(start_date, end_date) of
    the reader, which only MinIO looks at.  Names are in the order of [s]. *)
Definition get_blobs_at_path (k : kind) (rnd : str) (hours : list moment) (path : str) (s : stored)
  : result (list str) :=
  match k with
  | Disk => Ok (map (fun e : place * str => snd (fst e))
                    (filter (fun e => str_eqb (fst (fst e)) [] && under path (snd (fst e))) s))
  | MinIo =>
      let* (bucket, object_path, _, _) := get_parts path in
      let* found := mapM (fun h => let* cycle := build_path rnd object_path h in
                                   Ok (keys_at bucket cycle s)) hours in
      Ok (concat found)
  | Gcs =>
      let* (bucket, object_path, _, _) := get_parts path in
      Ok (keys_at bucket object_path s)
  end.
(** disk_reader.py:18-20, minio_reader.py:48-54, google_cloud_storage_reader.py:30-37.
    StorageError stands for a missing file or object.  Simplification: in MinIO every failure ends
    as the UnboundLocalError of the finally clause. *)
Definition get_blob_bytes (k : kind) (name : str) (s : stored) : result str :=
  match k with
  | Disk => match lookup (file_of name) s with Some v => Ok v | None => Raise StorageError end
  | _ =>
      let* (bucket, object_path, stem, ext) := get_parts name in
      match stem, ext with
      | Some stem, Some ext =>
          match lookup (bucket, object_path ++ stem ++ ext) s with
          | Some v => Ok v | None => Raise StorageError
          end
      | _, _ => Raise TypeError
      end
  end.
