(** * Paths: packages path and path/filepath of the Go standard library (on Unix), as far as commands/*.go uses them. *)
From Verif Require Import Base Strings.

(** path.Ext, filepath.Ext: from the last dot behind the last slash on.  [seen] is the extension found so far. *)
Fixpoint ext_from (seen : bytes) (p : bytes) : bytes :=
  match p with
  | [] => seen
  | c :: r => if c =? 47 then ext_from [] r else if c =? 46 then ext_from p r else ext_from seen r
  end.
Definition path_ext (p : bytes) : bytes := ext_from [] p.

(** The path in its parts between slashes *)
Fixpoint parts (p : bytes) : list bytes :=
  match p with
  | [] => [[]]
  | c :: r => if c =? 47 then [] :: parts r else match parts r with [] => [[c]] | x :: xs => (c :: x) :: xs end
  end.

(** path.Base: the last element; trailing slashes are removed first *)
Definition path_base (p : bytes) : bytes :=
  match p with
  | [] => str "."
  | _ => match rev (filter (fun x => negb (bytes_eqb x [])) (parts p)) with [] => str "/" | x :: _ => x end
  end.

(** path.Clean; [out] are the elements kept, the last one first *)
Definition clean_step (rooted : bool) (out : list bytes) (x : bytes) : list bytes :=
  if bytes_eqb x [] || bytes_eqb x (str ".") then out
  else if bytes_eqb x (str "..") then
    match out with
    | y :: r => if bytes_eqb y (str "..") then x :: out else r
    | [] => if rooted then [] else [x]
    end
  else x :: out.
Definition path_clean (p : bytes) : bytes :=
  let rooted := match p with c :: _ => c =? 47 | [] => false end in
  let out := rev (fold_left (clean_step rooted) (parts p) []) in
  let s := concat (match out with [] => [] | x :: r => x :: map (cons 47) r end) in
  if rooted then 47 :: s else match s with [] => str "." | _ => s end.

(** path.Split, the first result: up to and including the last slash *)
Fixpoint dir_part (p : bytes) : bytes :=
  match p with [] => [] | c :: r => if existsb (Z.eqb 47) p then c :: dir_part r else [] end.

(** path.Dir *)
Definition path_dir (p : bytes) : bytes := path_clean (dir_part p).

(** path.Join of two elements that are not empty *)
Definition path_join (a b : bytes) : bytes := path_clean (a ++ [47] ++ b).

(** strings.TrimSuffix *)
Definition trim_suffix (s suffix : bytes) : bytes :=
  let n := (length s - length suffix)%nat in
  if (length suffix <=? length s)%nat && bytes_eqb (skipn n s) suffix then firstn n s else s.
