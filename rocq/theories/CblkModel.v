(** The code-block between the block coder (t1.rs) and the packets (t2.rs): what
    the encoder hands from one to the other, and back at the decoder.

    Chunks are pointers into the packets; with one chunk the block decoder reads
    the packet in place, with several it copies them into a buffer of its own
    (t1.rs:2279-2330). Either way it reads the bytes one after the other; past
    the end the model has zeros, and the code whatever follows. *)

From Coq Require Import ZArith List Bool.
From Verif Require Import I32 Mem T2CodesModel T2PacketModel T1Model.
Import ListNotations.
Local Open Scope Z_scope.

(** t1.rs:2757-2920 leaves [numbps] (u32), and the passes' [rate], [len] and
    [term]; tcd.rs:59-204 makes the layers, [cuts] passes up to each. The packet
    encoder converts [numbps] to i32 (t2.rs:688). *)
Definition coded_block (k : coded) (cuts : list nat) : ecblk :=
  mkE (i32 (k_numbps k)) (map (fun p => mkPass (fst p) (snd p)) (combine (pass_lens (k_rates k)) (k_terms k)))
      (make_layers (k_rates k) (k_data k) 0 cuts) 0 0.

(** tcd.rs:1467-1504 [opj_tcd_code_block_dec_allocate] and the zeroed block array
    (tcd.rs:1246-1262): a code-block before the first packet. The segments'
    array keeps its contents, all reset; none is looked at. *)
Definition blank_block : dblk := mkD 0 0 [] 0 0 0 0 [].

(** t1.rs:2232-2430 on a block as the packets left it: [numbps], whether there
    are chunks, length and number of passes of the real segments. *)
Definition decode_block (w h orient roishift sty : Z) (d : dblk) : option mem :=
  decode_cblk w h orient roishift sty (d_numbps d) (negb (match d_chunks d with [] => true | _ => false end))
    (map (fun s => (s_len s, s_real s)) (firstn (d_realsegs d) (d_segs d)))
    (fun i => nth (Z.to_nat i) (concat (d_chunks d)) 0).
