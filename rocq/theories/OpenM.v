(** Opening files (File.__init__, __init__.py l.1629-1761), and the functions of the
    module that open, use and close a file (l.2240-2722). *)
From Verif Require Import Base PathEsc PosixPath ProcessPath Unicode MColl Dec NdArray Value OptionsM Attrs Hdf5 NpWrite MarshalW MarshalR FileApi.
Local Open Scope nat_scope.

(** ** what is on disk *)
(** an HDF5 file: its userblock (the bytes before what HDF5 uses), and its contents *)
Record image := mkImage { im_user : list N; im_st : st }.
Inductive entry := NoFile | Directory | Foreign (bytes : list N) | H5 (im : image).
Definition is_file (e : entry) : bool := match e with Foreign _ | H5 _ => true | _ => false end.

(** h5py.File(filename, mode="w", userblock_size=512): whatever is there is replaced.
    The userblock is taken to be zeros. *)
Definition fresh_image : image := mkImage (repeat 0%N 512) empty_file.
Definition h5_create (e : entry) : entry * res image :=
  match e with Directory => (e, Err OSError) | _ => (H5 fresh_image, Ok fresh_image) end.
(** h5py.File(filename, mode="r") and mode="a" of what exists *)
Definition h5_open (e : entry) : res image :=
  match e with H5 im => Ok im | _ => Err OSError end.

(** ** the header (l.1702-1749) *)
(** datetime.datetime.utcnow(): weekday() and the fields *)
Record now := mkNow { n_weekday : nat; n_month : nat; n_day : nat; n_hour : nat; n_minute : nat; n_second : nat; n_year : nat }.
Definition weekdays : list pystr := [lit "Mon"; lit "Tue"; lit "Wed"; lit "Thu"; lit "Fri"; lit "Sat"; lit "Sun"].
Definition months : list pystr :=
  [lit "Jan"; lit "Feb"; lit "Mar"; lit "Apr"; lit "May"; lit "Jun"; lit "Jul"; lit "Aug"; lit "Sep"; lit "Oct"; lit "Nov"; lit "Dec"].
(** %d, %H, %M, %S: two digits; %Y: the decimal number *)
Definition two (n : nat) : pystr := (if n <? 10 then lit "0" else []) ++ show_nat n.
Definition header_text (t : now) : pystr :=
  lit "MATLAB 7.3 MAT-file, Platform: hdf5storage 0.2, Created on: " ++
  nth (n_weekday t) weekdays [] ++ lit " " ++ nth (n_month t - 1) months [] ++ lit " " ++
  two (n_day t) ++ lit " " ++ two (n_hour t) ++ lit ":" ++ two (n_minute t) ++ lit ":" ++ two (n_second t) ++ lit " " ++ show_nat (n_year t) ++
  lit " HDF5 schema 1.00 .".
(** l.1746-1749; n * " " of a negative n is "" *)
Definition header (t : now) : list N :=
  let s := header_text t in
  s ++ repeat 32%N (128 - 12 - length s) ++ [0; 0; 0; 0; 0; 0; 0; 0; 0; 2; 73; 77]%N.
(** l.1751-1752: the first bytes of the file are replaced *)
Definition put_header (t : now) (im : image) : image :=
  let b := header t in mkImage (b ++ skipn (length b) (im_user im)) (im_st im).

(** ** File(filename, ...), l.1670-1761; the arguments are of the right types *)
Record open_args := mkOpen { oa_writable : bool; oa_truncate : bool; oa_truncate_invalid : bool }.
Definition open_file (o : options) (t : now) (a : open_args) (e : entry) : entry * res file :=
  if negb (oa_writable a) then
    (e, do im <- h5_open e; Ok (mkFile true (new_session (im_st im))))
  else
    let '(e1, r1) :=
      if oa_truncate a || negb (is_file e) then h5_create e
      else match h5_open e with
           | Ok im => if o_matlab_compatible o && oa_truncate_invalid a && (length (im_user im) <? 128)
                      then h5_create e else (e, Ok im)
           | Err x => (e, Err x)
           end in
    match r1 with
    | Err x => (e1, Err x)
    | Ok im =>
        let im2 := if o_matlab_compatible o && (128 <=? length (im_user im)) then put_header t im else im in
        (H5 im2, Ok (mkFile true (new_session (im_st im2))))
    end.
(** what is on disk once the file is closed *)
Definition stored (f : file) (e : entry) : entry :=
  match e with H5 im => H5 (mkImage (im_user im) (fl_st f)) | _ => e end.

Section Module.
Variables (rnd : nat -> N) (tries depth_ : nat) (keq : pyval -> pyval -> bool) (t : now).

(** ** writes and write, l.2240-2335: with File(writable=True, ...) as f: f.writes(mdict) *)
Definition mod_writes (o : options) (trunc trunc_invalid : bool) (mdict : list (pypath * pyval)) (e : entry) : entry * res unit :=
  match open_file o t (mkOpen true trunc trunc_invalid) e with
  | (e1, Err x) => (e1, Err x)
  | (e1, Ok f) => let '(f', r) := file_writes o rnd tries depth_ f mdict in (stored f' e1, r)
  end.
Definition mod_write (o : options) (trunc trunc_invalid : bool) (v : pyval) (p : pypath) (e : entry) : entry * res unit :=
  mod_writes o trunc trunc_invalid [(p, v)] e.
(** ** reads and read, l.2338-2450; [given]: the options, if options or matlab_compatible
    was given; otherwise [kw] and then matlab_compatible=False *)
Definition reading_options (given : option options) (kw : optname -> optval) : res options :=
  match given with
  | Some o => Ok o
  | None => init (fun n => match n with MatlabCompatible => OVBool false | n => kw n end)
  end.
Definition mod_reads (o : options) (ps : list pypath) (e : entry) : entry * res (list pyval) :=
  match open_file o t (mkOpen false false false) e with
  | (e1, Err x) => (e1, Err x)
  | (e1, Ok f) => (e1, snd (file_reads o depth_ keq f ps))
  end.
Definition mod_read (o : options) (p : pypath) (e : entry) : entry * res pyval :=
  match open_file o t (mkOpen false false false) e with
  | (e1, Err x) => (e1, Err x)
  | (e1, Ok f) => (e1, snd (file_read o depth_ keq f p))
  end.

(** ** savemat and loadmat *)
Definition disk := pystr -> entry.
Definition put_disk (d : disk) (n : pystr) (e : entry) : disk := fun m => if eqb_str m n then e else d m.
(** file_name.endswith(".mat") *)
Definition ends_with (p s : pystr) : bool := eqb_str p (skipn (length s - length p) s).
Definition mat_name (append : bool) (n : pystr) : pystr :=
  if append && negb (ends_with (lit ".mat") n) then n ++ lit ".mat" else n.
(** l.2569-2575, the options given being right *)
Definition savemat_options (metadata : bool) (oned action : pystr) : res options :=
  init (fun n => match n with
                 | StorePythonMetadata => OVBool metadata
                 | OnedAs => OVStr oned
                 | ActionForMatlabIncompatible => OVStr action
                 | n => default_args n
                 end).
(** l.2560-2584, for the format "7.3" (older formats are handed to scipy) *)
Definition savemat (d : disk) (name : pystr) (mdict : list (pypath * pyval)) (append metadata : bool) (oned action : pystr)
    (trunc trunc_invalid : bool) : disk * res unit :=
  let n := mat_name append name in
  match savemat_options metadata oned action with
  | Err x => (d, Err x)
  | Ok o => let '(e, r) := mod_writes o trunc trunc_invalid mdict (d n) in (put_disk d n e, r)
  end.

(** a dict by name or path; == of paths as keys *)
Variable peq : pypath -> pypath -> bool.
Fixpoint var_put (k : pypath) (v : pyval) (l : list (pypath * pyval)) : list (pypath * pyval) :=
  match l with
  | [] => [(k, v)]
  | (k', v') :: r => if peq k' k then (k', v) :: r else (k', v') :: var_put k v r
  end.
Definition var_update (l new : list (pypath * pyval)) : list (pypath * pyval) :=
  fold_left (fun d kv => var_put (fst kv) (snd kv) d) new l.
(** f.items() (collections.abc.ItemsView): f[k] of every k that iterating gives *)
Definition file_items (o : options) (f : file) : res (list (pystr * pyval)) :=
  do names <- snd (file_iter o f);
  mapr (fun k => do v <- snd (file_read o depth_ keq f (PStr k)); Ok (k, v)) names.
(** l.2678-2714; [old]: the mdict given, [] for None; the options are Options() when
    none are given.  OSError: the file is handed to scipy, which is left out. *)
Definition loadmat (d : disk) (name : pystr) (old : list (pypath * pyval)) (append : bool) (names : option (list pypath)) (o : options)
    : res (list (pypath * pyval)) :=
  do f <- snd (open_file o t (mkOpen false false false) (d (mat_name append name)));
  do data <- (match names with
              | None => do its <- file_items o f;
                        do l <- mapr (fun kv => do k <- unescape_path (fst kv); Ok (PStr k, snd kv)) its; Ok (var_update [] l)
              | Some ks => Ok (fold_left (fun dd k => match snd (file_read o depth_ keq f k) with
                                                       | Ok v => var_put k v dd
                                                       | Err _ => dd
                                                       end) ks [])
              end);
  Ok (var_update old data).
End Module.
