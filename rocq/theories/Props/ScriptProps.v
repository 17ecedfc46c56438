(** Scripts: C36 to C41. *)
From Verif.Model Require Import Py Text Packing Misc Signature Script.
From Verif.Spec Require Import Numbers ScriptSpec.
From Verif.Proofs Require Import PyFacts NumbersFacts ScriptFacts ScriptTheorems AsmFacts.

(** C36: an item under 2^32 bytes is pushed, alone, by a script that is the only shortest one; a larger item
    raises struct.error. *)
Theorem C36_push_item (d : bytes) : bytes_ok d = true ->
  (zlen d < 2 ^ 32 -> exists p, push_item d = Ok p /\ bytes_ok p = true /\ encodes p (Data d) /\ script_ops p = ([Data d], false) /\
     forall s, bytes_ok s = true -> script_ops s = ([Data d], false) -> zlen p <= zlen s /\ (zlen p = zlen s -> p = s)) /\
  (2 ^ 32 <= zlen d -> push_item d = Err StructError).
Proof.
  intros HB. split; [|apply push_item_large]. intros HL. destruct (push_item_total d HL) as (p & HP). exists p. split; [exact HP|].
  split; [exact (push_item_bytes _ _ HB HP)|]. split; [exact (proj1 (push_item_encodes _ _ HP))|]. split; [exact (push_item_ops _ _ HP)|].
  intros s HBs HO. exact (push_item_shortest d p s HBs HP HO).
Qed.
Example C36_ex : push_item (zrepeat 7 76) = Ok (76 :: 76 :: zrepeat 7 76) /\ push_item [16] = Ok [96] /\ push_item [17] = Ok [1; 17]
  /\ script_ops (77 :: 76 :: 0 :: zrepeat 7 76) = ([Data (zrepeat 7 76)], false).
Proof. vm_compute. repeat split. Qed.

(** C37: push_int pushes the shortest item denoting its value. *)
Theorem C37_push_int (v : Z) : exists item, bytes_ok item = true /\ number item v /\ item_to_int item = Ok v /\
  (forall item', bytes_ok item' = true -> number item' v -> zlen item <= zlen item') /\
  (zlen item < 2 ^ 32 -> exists p, push_int v = Ok p /\ script_ops p = ([Data item], false)) /\
  (2 ^ 32 <= zlen item -> push_int v = Err StructError).
Proof.
  destruct (push_int_item v) as (item & HB & HN & HP & HS). exists item. split; [exact HB|]. split; [exact HN|]. split; [now apply item_to_int_Ok|].
  split; [exact HS|]. rewrite HP. split; [|apply push_item_large]. intros HL. destruct (push_item_total item HL) as (p & HPI). exists p. split; [exact HPI|].
  exact (push_item_ops _ _ HPI).
Qed.
Theorem C37_injective v w p : push_int v = Ok p -> push_int w = Ok p -> v = w.
Proof. exact (push_int_inj v w p). Qed.
(** item_to_int is total on byte strings and computes the number the item denotes. *)
Theorem C37_item_to_int (item : bytes) : bytes_ok item = true ->
  (exists v, item_to_int item = Ok v) /\ forall v, item_to_int item = Ok v <-> number item v.
Proof.
  intros HB. split; [|intros v; exact (item_to_int_Ok item v HB)]. destruct (item_to_int_number item HB) as (v & HV & _). eauto.
Qed.
Example C37_ex : push_int (-255) = Ok [2; 255; 128] /\ number [255; 128] (-255) /\ item_to_int [255; 128] = Ok (-255) /\
  push_int 128 = Ok [2; 128; 0] /\ push_int (-1) = Ok [79] /\ item_to_int [255; 0; 128] = Ok (-255).
Proof. repeat split; try (vm_compute; reflexivity). right. exists [255], 128. split; [reflexivity|right]. split; [lia|reflexivity]. Qed.

(** C38 *)
Theorem C38_concat (a b : bytes) l : bytes_ok a = true -> script_ops a = (l, false) ->
  script_ops (a ++ b) = let '(l', t) := script_ops b in (l ++ l', t).
Proof. exact (ops_app a b l). Qed.
Theorem C38_push_many_is_repeated_append (script : bytes) items : push_many script items = append_all script items.
Proof. exact (push_many_lshift items script). Qed.
(** A script that push_many builds from complete parts parses to the operations of the parts. *)
Theorem C38_parts (script : bytes) items s l : bytes_ok script = true -> script_ops script = (l, false) -> push_many script items = Ok s ->
  exists parts, mapM item_bytes items = Ok parts /\ s = script ++ concat parts /\
   (Forall (fun b => bytes_ok b = true /\ snd (script_ops b) = false) parts ->
    script_ops s = (l ++ concat (map (fun b => fst (script_ops b)) parts), false)).
Proof.
  intros HB HO HP. unfold push_many in HP. apply bind_Ok in HP as (parts & HM & HP). injection HP as <-. exists parts. split; [exact HM|]. split; [reflexivity|].
  exact (append_ops parts script l HB HO).
Qed.
(** What a single part parses to. *)
Theorem C38_part i b : item_bytes i = Ok b ->
  match i with
  | IOp c => script_ops b = if (c =? 76) || (c =? 77) || (c =? 78) then ([], true)
             else if (c =? 0) then ([Data []], false) else if c <? 76 then ([], true)
             else if c =? 79 then ([Data [129]], false)
             else if (81 <=? c) && (c <=? 96) then ([Data [c - 80]], false) else ([Code c], false)
  | IBytes d => script_ops b = ([Data d], false)
  | IInt v => exists item, number item v /\ script_ops b = ([Data item], false)
  | IScript s => b = s
  | IOther => False
  end.
Proof. exact (item_ops i b). Qed.
Example C38_ex : push_many [118] [IOp 169; IBytes [5; 6]; IInt 1000; IScript [136; 172]] = Ok [118; 169; 2; 5; 6; 2; 232; 3; 136; 172] /\
  script_ops [118; 169; 2; 5; 6; 2; 232; 3; 136; 172] = ([Code 118; Code 169; Data [5; 6]; Data [232; 3]; Code 136; Code 172], false).
Proof. vm_compute. split; reflexivity. Qed.

(** C39: a byte string is split into operations and possibly part of a push, in one way only, and this is
    what ops() yields; TruncatedScriptError (the flag) is raised exactly if part of a push is left. *)
Theorem C39_ops (s : bytes) : bytes_ok s = true -> exists parts l tail,
  s = concat parts ++ tail /\ Forall2 encodes parts l /\
  ((tail = [] /\ script_ops s = (l, false)) \/
   (tail <> [] /\ (exists more d, more <> [] /\ encodes (tail ++ more) (Data d)) /\ script_ops s = (l, true))).
Proof.
  intros HB. destruct (parse_total s HB) as (parts & l & tail & Hs & HF & [HO|[(Hne & HC) HO]]); exists parts, l, tail; (split; [exact Hs|]); (split; [exact HF|]); auto.
Qed.
Theorem C39_whole parts l : Forall2 encodes parts l -> script_ops (concat parts) = (l, false).
Proof. exact (parse_whole parts l). Qed.
Theorem C39_truncated parts l tail more d : Forall2 encodes parts l -> bytes_ok tail = true -> tail <> [] -> more <> [] ->
  encodes (tail ++ more) (Data d) -> script_ops (concat parts ++ tail) = (l, true).
Proof. intros HF HB Hne Hm HE. apply parse_cut; [exact HF|exact HB|]. split; [exact Hne|]. eauto. Qed.
Theorem C39_opcodes (s : bytes) c : bytes_ok s = true -> In (Code c) (fst (script_ops s)) -> c = 80 \/ 97 <= c <= 255.
Proof.
  intros HB HI. destruct (parse_total s HB) as (parts & l & tail & _ & HF & HO).
  assert (HL : fst (script_ops s) = l) by (destruct HO as [[_ ->]|[_ ->]]; reflexivity). rewrite HL in HI. clear HL HO.
  induction HF as [|p o parts l HE _ IH]; [contradiction|]. destruct HI as [->|HI]; [|now apply IH]. remember (Code c) as o eqn:Ho.
  destruct HE; try discriminate. now injection Ho as ->.
Qed.
Example C39_ex : script_ops [82; 2; 9; 9; 172; 77; 3; 0; 8] = ([Data [2]; Data [9; 9]; Code 172], true) /\
  encodes ([77; 3; 0; 8] ++ [8; 8]) (Data [8; 8; 8]) /\ script_ops [82; 2; 9; 9; 172] = ([Data [2]; Data [9; 9]; Code 172], false).
Proof. split; [vm_compute; reflexivity|]. split; [|vm_compute; reflexivity]. cbn [app]. apply enc_push2; try lia. reflexivity. Qed.

(** C40: exactly the scripts whose operations are known opcodes, shortest pushes of shortest numbers of at
    most 4 bytes, and shortest pushes of longer data that does not look like a decimal number up to
    2147483647 survive conversion to ASM and back. *)
Theorem C40_roundtrip_exactly der_ok (s : bytes) : bytes_ok s = true -> exists a, to_asm der_ok s false = Ok a /\
  (from_asm a = Ok s <-> exists parts l, s = concat parts /\ Forall2 encodes parts l /\ Forall2 asm_safe parts l).
Proof. exact (asm_roundtrip der_ok s). Qed.
(** The round trip fails for some scripts of known opcodes and shortest pushes: a push of five zero bytes
    comes back as a push of the empty string, and so does a push of one zero byte. *)
Theorem C40_refuted : exists d p a, push_item d = Ok p /\ bytes_ok p = true /\ shortest_push p d /\
  (forall der_ok, to_asm der_ok p false = Ok a) /\ from_asm a = Ok [0] /\ p <> [0].
Proof.
  exists [0; 0; 0; 0; 0], [5; 0; 0; 0; 0; 0], (txt "0000000000"). split; [reflexivity|]. split; [reflexivity|]. split; [|split; [reflexivity|split; [vm_compute; reflexivity|discriminate]]].
  apply shortest_push_iff; [reflexivity| |reflexivity]. now constructor.
Qed.
Example C40_ex : let s := [118; 169; 4; 1; 2; 3; 4; 5; 171; 1; 2; 3; 4; 79; 1; 17] in
  to_asm (fun _ => false) s false = Ok (txt "OP_DUP OP_HASH160 67305985 ab01020304 -1 17") /\
  from_asm (txt "OP_DUP OP_HASH160 67305985 ab01020304 -1 17") = Ok s.
Proof. vm_compute. split; reflexivity. Qed.

(** C41: stripping keeps the effect of a script on any machine obeying the laws (a truncated script is
    marked by an OP_0 at its end). *)
Theorem C41_strip_preserves {St} (exec : op -> St -> St) (s : bytes) (st : St) : drop_laws exec ->
  run exec (stripped_ops s) st = run exec (fst (script_ops s) ++ if snd (script_ops s) then [Code 0] else []) st.
Proof. intros HL. exact (stripped_run exec HL s st). Qed.
Theorem C41_strip_complete (l : list op) :
  fold_left strip_step (rev (fold_left strip_step l [])) [] = fold_left strip_step l [].
Proof. exact (strip_idempotent l). Qed.
Theorem C41_push_and_drop_items (s : bytes) items p l : bytes_ok s = true -> script_ops s = (l, false) ->
  push_and_drop_items items = Ok p -> stripped_ops (s ++ p) = stripped_ops s.
Proof. exact (push_and_drop_nothing s items p l). Qed.
Theorem C41_push_and_drop_item (s : bytes) item p l : bytes_ok s = true -> script_ops s = (l, false) ->
  push_and_drop_item item = Ok p -> stripped_ops (s ++ p) = stripped_ops s.
Proof. exact (push_and_drop_one s item p l). Qed.
(** A machine obeying the laws: a stack (top first) of data and a log of the other opcodes with the stacks
    they saw; dropping from a stack that is too small is logged. *)
Definition stack_exec (o : op) (st : list bytes * list (Z * list bytes)) : list bytes * list (Z * list bytes) :=
  let '(stack, log) := st in
  match o, stack with
  | Data d, _ => (d :: stack, log)
  | Code c, _ =>
    if c =? 97 then st
    else match stack with
         | _ :: r => if c =? 117 then (r, log)
                     else match r with
                          | _ :: r' => if c =? 109 then (r', log) else (stack, (c, stack) :: log)
                          | [] => (stack, (c, stack) :: log)
                          end
         | [] => (stack, (c, stack) :: log)
         end
  end.
Example C41_laws : drop_laws stack_exec.
Proof. split; [intros [[|x r] log]; reflexivity|intros d [stack log]; reflexivity|intros d e [stack log]; reflexivity]. Qed.
Example C41_ex : stripped_ops [1; 7; 97; 117; 118; 81; 82; 109; 172] = [Code 118; Code 172] /\
  push_and_drop_items [[5]; [6; 7]; [8]] = Ok [85; 2; 6; 7; 88; 109; 117] /\
  run stack_exec [Data [7]; Code 97; Code 117; Code 118; Data [1]; Data [2]; Code 109; Code 172] ([[9]], []) = ([[9]], [(172, [[9]]); (118, [[9]])]).
Proof. vm_compute. repeat split. Qed.

Print Assumptions C36_push_item.
Print Assumptions C37_push_int.
Print Assumptions C37_injective.
Print Assumptions C37_item_to_int.
Print Assumptions C38_concat.
Print Assumptions C38_push_many_is_repeated_append.
Print Assumptions C38_parts.
Print Assumptions C38_part.
Print Assumptions C39_ops.
Print Assumptions C39_whole.
Print Assumptions C39_truncated.
Print Assumptions C39_opcodes.
Print Assumptions C40_roundtrip_exactly.
Print Assumptions C40_refuted.
Print Assumptions C41_strip_preserves.
Print Assumptions C41_strip_complete.
Print Assumptions C41_push_and_drop_items.
Print Assumptions C41_push_and_drop_item.
