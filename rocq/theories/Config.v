(** * dt/util.py: ConfigFile

    Keys and values are strings, as [load_from_file] stores them; other objects stored through
    [__setitem__] are not modelled. *)
From Verif Require Export Parser.

Definition config := dict str.

(** dt/util.py:52-62 [ConfigFile.get] *)
Definition cfg_get (c : config) (name default : option str) : option str :=
  match name with
  | Some n => match dget n c with Some v => Some v | None => default end
  | None => default
  end.
(** dt/util.py:64-71 [__setitem__] *)
Definition cfg_set (c : config) (key value : str) : config := dset key value c.
(** dt/util.py:73-79 [__getitem__] *)
Definition cfg_getitem (c : config) (item : str) : option str := cfg_get c (Some item) None.
(** dt/util.py:81-87 [__len__] *)
Definition cfg_len (c : config) : nat := length (dkeys c).
(** dt/util.py:89-97 [__eq__]: equality of dictionaries, which does not look at the order *)
Definition cfg_eqb (a b : config) : bool :=
  Nat.eqb (length a) (length b)
  && forallb (fun kv => match dget (fst kv) b with Some v => str_eqb (snd kv) v | None => false end) a.

(** The warnings printed to standard error (dt/util.py:117, 119, 123), without their file name *)
Inductive warning := BadlyFormed (line : str) | Ignoring (line : str) | CannotOpen.

(** dt/util.py:109-119 one line of the file *)
Definition load_line (st : config * list warning) (raw : str) : config * list warning :=
  let '(c, ws) := st in
  let line := strip (hd [] (split_char "#" raw)) in
  if negb (str_eqb line []) && contains ($"=") line then
    let '(k, _, v) := partition_char "=" line in
    let key := strip k in
    let value := strip v in
    if negb (str_eqb key []) && negb (str_eqb value []) then (dset key value c, ws)
    else (c, ws ++ [BadlyFormed line])
  else if negb (str_eqb line []) then (c, ws ++ [Ignoring line])
  else (c, ws).

(** dt/util.py:107-121 the content of the file *)
Definition load_text (c : config) (text : str) : config * list warning :=
  fold_left load_line (file_lines (universal_newlines text)) (c, []).

(** dt/util.py:99-124 [load_from_file]: [files] is the file system; [None] for a file that cannot be
    opened.  The new configuration, the value returned and what is printed.  A failure while reading
    an open file is not modelled. *)
Definition load_from_file (files : str -> option str) (c : config) (filename : str)
  : config * bool * list warning :=
  match files filename with
  | Some text => let '(c', ws) := load_text c text in (c', true, ws)
  | None => (c, false, [CannotOpen])
  end.

(** dt/util.py:134-136 the text written *)
Definition config_text (c : config) : str :=
  flat_map (fun kv => fst kv ++ $" = " ++ snd kv ++ [newline]) c.

(** dt/util.py:126-141 [write_to_file]: [can_write] tells whether the file can be opened for writing.
    The new file system and the value returned; a failure while writing is not modelled. *)
Definition write_to_file (files : str -> option str) (can_write : str -> bool) (c : config) (filename : str)
  : (str -> option str) * bool * list warning :=
  if can_write filename
  then (fun f => if str_eqb f filename then Some (config_text c) else files f, true, [])
  else (files, false, [CannotOpen]).
