(** Model of who owns the memory of images (image.rs): the array of components, the
    data of each, and the profile. A heap is the list of live allocations; freeing
    anything else is a fault. Also the hand-over of decoded data to the caller
    (j2k.rs:11804-11885). Sizes and contents are left out. *)

From Coq Require Import List Bool Arith.
Import ListNotations.

(** A pointer: null, to an allocation, or memory that was never written. *)
Inductive ptr := Null | To (a : nat) | Junk.
(** image.rs:128-139 [opj_image]; [m_comps] is [None] for null. *)
Record image := mkImage { m_num : nat; m_comps : option (nat * list ptr); m_icc : ptr }.
(** image.rs:143-157 *)
Definition new_image : image := mkImage 0 None Null.

Record heap := mkHeap { h_live : list nat; h_next : nat }.

Fixpoint remove1 (a : nat) (l : list nat) : option (list nat) :=
  match l with
  | [] => None
  | b :: l => if a =? b then Some l else option_map (cons b) (remove1 a l)
  end.
(** Freeing null does nothing; [None] is a fault. *)
Definition free (p : ptr) (h : heap) : option heap :=
  match p with
  | Null => Some h
  | To a => option_map (fun l => mkHeap l (h_next h)) (remove1 a (h_live h))
  | Junk => None
  end.
(** [ok] says whether there is memory. *)
Definition alloc (ok : bool) (h : heap) : option nat * heap :=
  if ok then (Some (h_next h), mkHeap (h_next h :: h_live h) (S (h_next h))) else (None, h).

Fixpoint free_all (l : list ptr) (h : heap) : option heap :=
  match l with [] => Some h | p :: l => match free p h with None => None | Some h => free_all l h end end.

(** image.rs:225-239; [comps] (209-215) makes a slice of [numcomps] components. *)
Definition clear_comps (i : image) (h : heap) : option (image * heap) :=
  match m_comps i with
  | None => Some (i, h)
  | Some (a, ds) =>
      if m_num i =? length ds then
        match free_all ds h with
        | None => None
        | Some h => option_map (fun h => (mkImage 0 None (m_icc i), h)) (free (To a) h)
        end
      else None
  end.

(** image.rs:241-255: [opj_calloc] or [opj_malloc]. *)
Definition alloc_comps (ok clear : bool) (n : nat) (i : image) (h : heap) : option (image * heap) :=
  match clear_comps i h with
  | None => None
  | Some (i, h) =>
      match alloc ok h with
      | (None, h) => Some (mkImage n None (m_icc i), h)
      | (Some a, h) => Some (mkImage n (Some (a, repeat (if clear then Null else Junk) n)) (m_icc i), h)
      end
  end.

(** image.rs:283-291 *)
Definition clear_icc (i : image) (h : heap) : option (image * heap) :=
  option_map (fun h => (mkImage (m_num i) (m_comps i) Null, h)) (free (m_icc i) h).

(** image.rs:293-317: a profile of no bytes, or one for which the buffer is
    allocated, whatever was there. *)
Definition copy_icc (ok empty : bool) (i : image) (h : heap) : option (image * heap) :=
  if empty then clear_icc i h
  else match alloc ok h with
  | (None, h) => Some (mkImage (m_num i) (m_comps i) Null, h)
  | (Some a, h) => Some (mkImage (m_num i) (m_comps i) (To a), h)
  end.

(** image.rs:320-325, 367-373 *)
Definition destroy (i : image) (h : heap) : option heap :=
  match clear_comps i h with
  | None => None
  | Some (i, h) => option_map snd (clear_icc i h)
  end.

(** image.rs:419-453 [opj_copy_image_header]. *)
Definition copy_header (ok ok_icc : bool) (src dst : image) (h : heap) : option (image * heap) :=
  match alloc_comps ok false (m_num src) dst h with
  | None => None
  | Some (mkImage _ None icc, h) => Some (mkImage 0 None icc, h)
  | Some (mkImage n (Some (a, ds)) icc, h) =>
      let ds := match m_comps src with Some (_, s) => map (fun _ => Null) s ++ skipn (length s) ds | None => ds end in
      match m_icc src with
      | Null => Some (mkImage n (Some (a, ds)) icc, h)
      | _ => copy_icc ok_icc false (mkImage n (Some (a, ds)) icc) h
      end
  end.

(** image.rs:64-83 for component [k]: the old data are freed. *)
Definition set_nth {A} (l : list A) (k : nat) (x : A) : list A := firstn k l ++ x :: skipn (S k) l.
Definition alloc_data (ok : bool) (k : nat) (i : image) (h : heap) : option (image * heap) :=
  match m_comps i with
  | None => None
  | Some (a, ds) =>
      match nth_error ds k with
      | None => None
      | Some p =>
          match free p h with
          | None => None
          | Some h =>
              match alloc ok h with
              | (None, h) => Some (mkImage (m_num i) (Some (a, set_nth ds k Null)) (m_icc i), h)
              | (Some d, h) => Some (mkImage (m_num i) (Some (a, set_nth ds k (To d))) (m_icc i), h)
              end
          end
      end
  end.

(** j2k.rs:11870-11884: all components; the data of [dst] are freed and those of
    [src] taken. [src] is the output image of the codec; it must have as many
    components. *)
Definition move_all (src dst : image) (h : heap) : option (image * image * heap) :=
  match m_comps src, m_comps dst with
  | Some (a, s), Some (b, d) =>
      if (m_num dst =? length d) && (length d <=? length s) then
        option_map (fun h => (mkImage (m_num src) (Some (a, map (fun _ => Null) d ++ skipn (length d) s)) (m_icc src),
                              mkImage (m_num dst) (Some (b, firstn (length d) s)) (m_icc dst), h))
          (free_all d h)
      else None
  | _, None => if m_num dst =? 0 then Some (src, dst, h) else None
  | None, Some _ => if m_num dst =? 0 then Some (src, dst, h) else None
  end.

(** j2k.rs:11831-11852: the components of [idx] are taken out of [s]. *)
Fixpoint take (idx : list nat) (s : list ptr) : option (list ptr * list ptr) :=
  match idx with
  | [] => Some ([], s)
  | k :: idx =>
      match nth_error s k with
      | None => None
      | Some p => option_map (fun r => (p :: fst r, snd r)) (take idx (set_nth s k Null))
      end
  end.
Definition is_null (p : ptr) : bool := match p with Null => true | _ => false end.
(** j2k.rs:11811-11868: only the chosen components; afterwards no component of [src]
    may have data, or there is a panic. The result is [dst] with as many components
    as chosen. Without memory the private image of the codec is destroyed, which is
    none of these two. *)
Definition move_some (ok : bool) (idx : list nat) (src dst : image) (h : heap) : option (image * image * heap) :=
  match alloc ok h with
  | (None, h) => Some (src, dst, h)
  | (Some c, h) =>
      match m_comps src, m_comps dst with
      | Some (a, s), Some (b, d) =>
          if (m_num dst =? length d) && (length d <=? length s) then
            match free_all d h, take idx s with
            | Some h, Some (t, s) =>
                if forallb is_null (firstn (length d) s) then
                  option_map (fun h => (mkImage (m_num src) (Some (a, s)) (m_icc src), mkImage (length idx) (Some (c, t)) (m_icc dst), h)) (free (To b) h)
                else None
            | _, _ => None
            end
          else None
      | _, _ => None
      end
  end.

(** image.rs:192-207: the image left behind and the one with the components; the
    profile stays. *)
Definition take_comps (i : image) : image * image :=
  match m_comps i with
  | None => (i, mkImage (m_num i) None Null)
  | Some c => (mkImage 0 None (m_icc i), mkImage (m_num i) (Some c) Null)
  end.

(** image.rs:159-185 [clone]: components are copied with the pointers to their data.
    It is not called in this program, and no operation below. *)
Definition clone (ok ok_icc : bool) (i : image) (h : heap) : option (image * heap) :=
  let icc j h := match m_icc i with Null => Some (j, h) | _ => copy_icc ok_icc false j h end in
  match m_comps i with
  | None => icc (mkImage (m_num i) None Null) h
  | Some (_, ds) =>
      match alloc ok h with
      | (None, h) => Some (mkImage (length ds) None Null, h)
      | (Some a, h) => icc (mkImage (length ds) (Some (a, ds)) Null) h
      end
  end.

(** A program with several images. *)
Inductive op :=
| ONew                                                    (* [opj_image_create0] *)
| OTile (ok : bool) (n : nat)                             (* [opj_image_tile_create] *)
| OCopy (ok ok_icc : bool) (src dst : nat)
| OData (ok : bool) (i k : nat)
| OIcc (ok empty : bool) (i : nat)
| OMove (src dst : nat)
| OSelect (ok : bool) (idx : list nat) (src dst : nat)
| OTake (i : nat)                                         (* the new image comes last *)
| ODestroy (i : nat).

Definition drop_nth {A} (l : list A) (k : nat) : list A := firstn k l ++ skipn (S k) l.

Definition step (o : op) (st : list image * heap) : option (list image * heap) :=
  let '(l, h) := st in
  let one i (f : image -> option (image * heap)) :=
    match nth_error l i with None => None | Some x => option_map (fun r => (set_nth l i (fst r), snd r)) (f x) end in
  let two s d (f : image -> image -> option (image * image * heap)) :=
    match nth_error l s, nth_error l d with
    | Some x, Some y => option_map (fun r => (set_nth (set_nth l s (fst (fst r))) d (snd (fst r)), snd r)) (f x y)
    | _, _ => None
    end in
  match o with
  | ONew => Some (l ++ [new_image], h)
  | OTile ok n =>
      match alloc_comps ok true n new_image h with
      | None => None
      | Some (mkImage _ None _ as i, h) => option_map (fun h => (l, h)) (destroy i h)
      | Some (i, h) => Some (l ++ [i], h)
      end
  | OCopy ok ok_icc s d => two s d (fun x y => option_map (fun r => (x, fst r, snd r)) (copy_header ok ok_icc x y h))
  | OData ok i k => one i (fun x => alloc_data ok k x h)
  | OIcc ok empty i => one i (fun x => copy_icc ok empty x h)
  | OMove s d => two s d (fun x y => move_all x y h)
  | OSelect ok idx s d => two s d (fun x y => move_some ok idx x y h)
  | OTake i => match nth_error l i with None => None | Some x => Some (set_nth l i (fst (take_comps x)) ++ [snd (take_comps x)], h) end
  | ODestroy i => match nth_error l i with None => None | Some x => option_map (fun h => (drop_nth l i, h)) (destroy x h) end
  end.
