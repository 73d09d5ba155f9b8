(** * What it means for metadata to be the same *)
From Verif Require Import Py Dataset_Model Meta_Model.

(** The order of the attributes and of the variables does not count;
    everything else does. *)
Record same_variable (v w : mvar) : Prop := {
  sv_name : mv_name v = mv_name w;
  sv_dtype : mv_dtype v = mv_dtype w;
  sv_dims : mv_dims v = mv_dims w;
  sv_attrs : mv_attrs v ≡ₚ mv_attrs w;
  sv_compressor : mv_compressor v = mv_compressor w;
  sv_fill : mv_fill v = mv_fill w;
  sv_filters : mv_filters v = mv_filters w;
}.
Record same_metadata (m n : mdataset) : Prop := {
  sm_dims : md_dims m = md_dims n;
  sm_attrs : md_attrs m ≡ₚ md_attrs n;
  sm_chunks : md_chunks m = md_chunks n;
  sm_block : md_block m = md_block n;
  sm_names : forall k, k ∈ dkeys (md_vars m) <-> k ∈ dkeys (md_vars n);
  sm_vars : forall k v w, dget (md_vars m) k = Some v -> dget (md_vars n) k = Some w -> same_variable v w;
}.

(** A variable is filed under its name, once, and there is a block limit. *)
Record well_formed (m : mdataset) : Prop := {
  wf_keys : NoDup (dkeys (md_vars m));
  wf_names : forall k v, dget (md_vars m) k = Some v -> mv_name v = k;
  wf_block : md_block m <> 0%Z;
}.
