(** * Properties: CdisFlags

    Theorems only: each is closed by the lemma of the same name in L_CdisFlags.v. *)
From Coq Require Import ZArith List Lia Bool String Ascii.
From Verif Require Import Base CdisBase DisCommon DisLists DisEntity DisRadio DisIff CdisRecords CdisBodies1 CdisBodies2 CdisIff CdisPdu SpecCdisPdu SpecCdisRelay SpecCdisFlags
  L_CdisPdu L_CdisRelay L_CdisFlags.
Import ListNotations. Open Scope Z_scope.

(** C29. Reading: the fields-present flags with which a C-DIS body begins describe the body that is read. Flag by flag, most significant first: every
   plain item the flag stands for is in the PDU exactly when the flag is set - so all items of a group come and go together - and a list has an
   element only if its flag is set. Nothing is read that was not announced, and nothing announced is passed over. *)
Theorem cdis_flags_read : forall t i rest b, p_cbody t i = POk rest b -> flags_describe (firstn (length (flagged_items b)) i) b.
Proof. exact cdis_flags_read_pf. Qed.
Print Assumptions cdis_flags_read.

(** C29. The same for a whole PDU: the flags are the first bits after the header. *)
Theorem cdis_pdu_flags_read : forall i rest p, p_cpdu i = POk rest p ->
  exists body, p_cheader i = POk body (cp_header p) /\ flags_describe (firstn (length (flagged_items (cp_body p))) body) (cp_body p).
Proof. exact cdis_pdu_flags_read_pf. Qed.
Print Assumptions cdis_pdu_flags_read.

(** C29. Reading and writing use one table: the flag a writer sets is that all the items listed for the flag here are there. *)
Theorem cdis_flags_table : forall b, presence_flags b = map (forallb item_there) (flagged_items b).
Proof. exact cdis_flags_table_pf. Qed.
Print Assumptions cdis_flags_table.

(** C29. The one way out, and it is real: a list's flag may be set although the list is empty, its length on the wire being zero. The library then writes the
   PDU back with the flag cleared and the length left out. *)
Theorem cdis_idle_list_flag : exists t i rest b bs, p_cbody t i = POk rest b /\ firstn 2 i = [true; true] /\ presence_flags b = [false; false] /\
  w_cbody Checked b = WOk bs tt /\ firstn 2 bs = [false; false] /\ zlen bs < zlen i - zlen rest.
Proof. exact cdis_idle_list_flag_pf. Qed.
Print Assumptions cdis_idle_list_flag.

Example cdis_flags_example : exists rest b, p_cbody 26 ([true; false] ++ ubits 160 0) = POk rest b /\ flagged_items b = [[Plain true]; [Plain false]].
Proof. do 2 eexists. split; [vm_compute; reflexivity|reflexivity]. Qed.
