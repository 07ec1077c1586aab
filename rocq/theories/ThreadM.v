(** The methods of File as threads see them: which steps they make with the lock held. *)
From Verif Require Import Base PathEsc PosixPath ProcessPath NdArray Value OptionsM Hdf5 MarshalW MarshalR FileApi ApiSpec ThreadSpec.
Local Open Scope nat_scope.

(** with self._lock: [p], which releases it also when an exception is raised; [p] returns
    once, at its end *)
Fixpoint leave (p : prog) : prog :=
  match p with
  | PRet r => PUnlock (PRet r)
  | PStep u k => PStep u (fun f => leave (k f))
  | PLock p => PLock (leave p)
  | PUnlock p => PUnlock (leave p)
  end.
Definition locked (p : prog) : prog := PLock (leave p).
(** the steps that only look at the file *)
Definition look (k : file -> prog) : prog := PStep (fun f => f) k.
(** if self._file is None: raise OSError("File is closed.") *)
Definition when_open (p : prog) : prog := look (fun f => if fl_open f then p else PRet (Err OSError)).

Section Methods.
Variables (o : options) (rnd : nat -> N) (tries n : nat) (keq : pyval -> pyval -> bool).

(** l.1921-1927: one item after the other *)
Fixpoint write_items (l : list ((pystr * pystr) * pyval)) : prog :=
  match l with
  | [] => PRet (Ok AUnit)
  | x :: r =>
      let w f := write_at o rnd tries n (fst (fst x)) (snd (fst x)) (snd x) (fl_st f) in
      PStep (fun f => mkFile (fl_open f) (fst (w f)))
            (fun f => match snd (w f) with Ok _ => write_items r | Err e => PRet (Err e) end)
  end.
(** l.2026-2035 *)
Fixpoint read_items (l : list (pystr * pystr)) (got : list pyval) : prog :=
  match l with
  | [] => PRet (Ok (AVals got))
  | gt :: r => look (fun f => match read_at o n keq (fst gt) (snd gt) (fl_st f) with Ok v => read_items r (got ++ [v]) | Err e => PRet (Err e) end)
  end.
(** the steps of the calls; paths are checked before the lock is acquired *)
Definition file_code (c : call) : prog :=
  match c with
  | KWrites mdict =>                                                   (* l.1892-1927 *)
      match mapr (fun pv => do gt <- check_path o (fst pv); Ok (gt, snd pv)) mdict with
      | Err e => PRet (Err e)
      | Ok l => locked (when_open (write_items l))
      end
  | KReads paths =>                                                    (* l.1998-2037 *)
      match mapr (check_path o) paths with
      | Err e => PRet (Err e)
      | Ok l => locked (when_open (read_items l []))
      end
  | KLen =>                                                            (* l.2054-2068 *)
      locked (when_open (look (fun f =>
        let m := length (links (hp (fl_st f)) 0) in
        if negb (m =? 0) && eqb_str (PosixPath.dirname (o_refs o)) [fslash] then
          look (fun f => match h5_in (fl_st f) (o_refs o) with Ok b => PRet (Ok (ANat (if b then m - 1 else m))) | Err e => PRet (Err e) end)
        else PRet (Ok (ANat m)))))
  | KContains p =>                                                     (* l.2085-2095 *)
      match process_path p with
      | Err TypeError => PRet (Ok (ABool false))
      | Err e => PRet (Err e)
      | Ok (g, t) => locked (when_open (look (fun f => PRet (match h5_in (fl_st f) (posix_join g [t]) with Ok b => Ok (ABool b) | Err e => Err e end))))
      end
  | KIter =>                                                           (* l.2121-2133 *)
      locked (when_open (look (fun f =>
        let names := map fst (links (hp (fl_st f)) 0) in
        PRet (Ok (ANames (if eqb_str (PosixPath.dirname (o_refs o)) [fslash] then dropwhile (eqb_str (tl (o_refs o))) names else names))))))
  | KDel p =>                                                          (* l.2228-2237 *)
      match process_path p with
      | Err e => PRet (Err e)
      | Ok (g, t) => locked (when_open
          (PStep (fun f => mkFile (fl_open f) (fst (unlink 0 (posix_join g [t]) (fl_st f))))
                 (fun f => PRet (match snd (unlink 0 (posix_join g [t]) (fl_st f)) with Ok _ => Ok AUnit | Err e => Err e end))))
      end
  | KClose => locked (PStep (fun f => mkFile false (fl_st f)) (fun _ => PRet (Ok AUnit)))   (* l.1786-1791 *)
  | KFlush => locked (when_open (PRet (Ok AUnit)))                     (* l.1793-1806 *)
  end.
End Methods.
