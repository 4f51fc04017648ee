(** Concrete states for the examples: the default tables. *)
From Coq Require Import String.
From Verif Require Import GoBase Bitstream Symbol SpecSymbol CdfMoves CdfMemory CdfDefaults SpecCoeffs PropCoeffs Elements ElementsSim.
Local Open Scope string_scope.
Local Open Scope Z_scope.
(** every table as initNonCoeffCdfs and initSymbol set it *)
Definition demo_heap (name : string) : tree :=
  if (name =? "IntraFrameYModeCdf")%string then defaultHeap "DEFAULT_INTRA_FRAME_Y_MODE_CDF"
  else match filter (fun m => (fst (fst m) =? name)%string) initNonCoeffMoves with
       | [(_, [], t)] => defaultHeap t
       | l => Node (map (fun m => defaultHeap (snd m)) l)
       end.
Definition table_okb (T : list (string * list Z * Z)) (h : string -> tree) : bool :=
  forallb (fun x => let t := h (fst (fst x)) in forallb (fun p => match tget t p with Ok c => valid_cdfb c && (nsyms c =? snd x) | _ => false end) (paths (snd (fst x)))) T.
Lemma table_okb_ok T h : table_okb T h = true -> table_ok T h.
Proof.
  unfold table_okb. rewrite forallb_forall. intros H name dims n path Hin Hp. specialize (H _ Hin). cbn [fst snd] in H. cbv zeta in H. rewrite forallb_forall in H. specialize (H path (paths_in dims path Hp)).
  destruct (tget (h name) path) as [c| |] eqn:E; try discriminate. apply andb_true_iff in H as [H1 H2]. exists c. split; [exact E|]. split; [apply valid_cdfb_spec, H1|lia].
Qed.
