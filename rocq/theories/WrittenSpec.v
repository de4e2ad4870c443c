(** What a successful unpack has written. *)
From Coq Require Import List Arith Ascii String Bool.
From Verif Require Import Bytes Outcome IO Primitives Crypto EncDec FS Archive.
Import ListNotations.
Local Open Scope list_scope.

(** The archive in the encrypted file has the entries [zs].  [plan], [g]: how writing to
    the temporary file goes, and the random numbers, which decrypting does not use. *)
Definition archive_in (E : env) (Z : zip_env) (bs : nat) (req : unpack_request) (s : sys)
  (zs : list zread) : Prop :=
  exists plan g tr w,
    decrypt_execute_bs E bs (match ur_hdr req with Some _ => true | None => false end) (ur_raw_key req)
      (mkWorld (handle_dev s (ur_in req)) (mkDev [] 0 plan []) (opt_dev s (ur_hdr req)) g tr) = (Ok tt, w)
    /\ z_decode Z (d_data (w_out w)) = Some zs.

(** Where an entry belongs: nowhere, if it cannot be opened or its name leads out of the
    directory [o]. *)
Definition target (o : path) (z : zread) : option path :=
  if zr_open z then
    match enclosed_name (zr_name z) with
    | Some p => Some (mkPath (p_abs o) (p_comps o ++ p_comps p))
    | None => None
    end
  else None.
Fixpoint targets (o : path) (zs : list zread) : list path :=
  match zs with
  | [] => []
  | z :: zs' => match target o z with Some p => p :: targets o zs' | None => targets o zs' end
  end.
(** The entries that belong somewhere and are accepted, in order. *)
Fixpoint chosen (o : path) (zs : list zread) (answers : list bool) : list (path * zread) :=
  match zs with
  | [] => []
  | z :: zs' =>
      match target o z, answers with
      | None, _ => chosen o zs' answers
      | Some p, true :: l => (p, z) :: chosen o zs' l
      | Some _, false :: l => chosen o zs' l
      | Some _, [] => []
      end
  end.
Definition for_dir (z : zread) : Prop := zip_is_dir (zr_name z) = true.

(** In [s'], a directory is at the place of each entry for one, and at that of each other
    entry a file with the complete content, unless a later entry belongs to the same
    file, or the place is [temp], that of the temporary archive. *)
Definition all_written (temp : option cpath) (s' : sys) (es : list (path * zread)) : Prop :=
  forall before p z later, es = before ++ (p, z) :: later ->
    (for_dir z -> stat s' p = Some NDir)
    /\ (~ for_dir z -> zr_ok z = true
        /\ (resolve true s' p = temp
            \/ exists i, stat s' p = Some (NFile i)
               /\ ((forall p2 z2, In (p2, z2) later -> ~ for_dir z2 -> stat s' p2 <> Some (NFile i)) ->
                   s_data s' i = zr_data z))).
