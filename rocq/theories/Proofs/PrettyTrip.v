(** * PrettyTrip.v: a formatted configuration is read back as it was, up to the order of maps, the
    default platform and the line breaks of secrets. *)
From Verif Require Import Model.Go Model.Types Model.RawParse Model.Decode Model.Encode Model.Quote Model.Pretty.
From Verif Require Import Spec.ParseSpec Spec.DecodeSpec Spec.YamlSpec Spec.PrettySpec.
From Verif Require Import Proofs.GoFacts Proofs.ParseFacts Proofs.DecodeFacts.
From Verif Require Import Proofs.PrettyTree Proofs.PrettyLayout Proofs.PrettyItems Proofs.YamlFacts Proofs.YamlDocs Proofs.PrettyRound.

Section Trip.
  Variable iph : N -> bool.
  Variables formatFloat sprintFloat : float64 -> string.
  Variable bytesSize : Z -> string.
  Variable resolve : string -> node.
  Variable ramInBytes : string -> option Z.
  Variable read : string -> option node.
  Hypothesis HR : Resolver resolve.
  Hypothesis HRead : Reads resolve read.
  Notation nodeOf := (YamlFacts.nodeOf resolve).
  Notation items r := (resourceItems iph formatFloat sprintFloat bytesSize r).

  Definition DocFor (r : Resource) (its : list (option (string * tree))) (r' : Resource) : Prop :=
    items r = Some (its ++ [None]) /\ isRegistry r = false /\ Good resolve (TMap its) /\ Top its /\ ReadBack r r' /\ getKind r' <> "" /\
    (exists v t, HeaderOf (nodeOf (TMap its)) v (getKind r') t) /\ IsResource ramInBytes (getKind r') (nodeOf (TMap its)) r'.
  Lemma resource_doc : forall r, Formattable resolve ramInBytes formatFloat bytesSize r -> exists its r', DocFor r its r'.
  Proof.
    intros [c|p|s|g|r] H; cbn [Formattable] in H.
    - destruct (cron_doc iph formatFloat sprintFloat bytesSize resolve HR c H) as (its & E & G & T & Hd & R).
      assert (K : cr_kind c = "cron") by apply H. exists its, (RCron c). split; [exact E|]. split; [reflexivity|]. split; [exact G|]. split; [exact T|]. split; [constructor|]. cbn [getKind].
      split; [rewrite K; discriminate|]. split; [eauto|]. split; [exact K|exact R].
    - destruct (pipeline_doc iph formatFloat sprintFloat bytesSize resolve ramInBytes HR p H) as (its & E & G & T & Hd & R).
      assert (K : ~ In (pi_kind p) [""; "cron"; "secret"; "signature"; "registry"]) by apply H.
      exists its, (RPipeline (sortedPipeline p)). split; [exact E|]. split; [reflexivity|]. split; [exact G|]. split; [exact T|]. split; [constructor|]. cbn [getKind sortedPipeline pi_kind].
      split; [intro Z; apply K; rewrite Z; left; reflexivity|]. split; [eauto|]. split; [|exact R]. intro I. apply K. right. exact I.
    - destruct (secret_doc iph formatFloat sprintFloat bytesSize resolve ramInBytes HR s H) as (d & Fd & its & E & G & T & Hd & R).
      assert (K : se_kind s = "secret") by apply H. eexists its, (RSecret _). split; [exact E|]. split; [reflexivity|]. split; [exact G|]. split; [exact T|]. split; [constructor; exact Fd|]. cbn [getKind se_kind].
      split; [rewrite K; discriminate|]. split; [eauto|]. split; [exact K|exact R].
    - destruct (signature_doc iph formatFloat sprintFloat bytesSize resolve HR g H) as (its & E & G & T & Hd & R).
      assert (K : si_kind g = "signature") by apply H. exists its, (RSignature g). split; [exact E|]. split; [reflexivity|]. split; [exact G|]. split; [exact T|]. split; [constructor|]. cbn [getKind].
      split; [rewrite K; discriminate|]. split; [eauto|]. split; [exact K|exact R].
    - destruct H.
  Qed.
  Lemma data_document : forall its, Good resolve (TMap its) -> Top its -> YamlDocument (dataText its).
  Proof.
    intros its (W & S & _) T. split.
    - unfold dataText, linesText, ParseSpec.text. rewrite map_map. assert (F := render_shows _ S 0). induction F as [|o ls H F IH]; [exists []; split; [reflexivity|constructor]|].
      cbn [map concats]. apply yaml_app; [|exact IH]. apply yaml_app; [|exact yaml_nl]. destruct o as [[n s]|]; cbn [lineText]; [|exists []; split; [reflexivity|constructor]].
      apply yaml_app; apply visible_yaml; [apply pad_visible|exact H].
    - assert (P := top_plain resolve its W T). assert (I := proj1 (render_inside resolve _ W 0)). intros l Hl. unfold dataText in Hl. rewrite split_text in Hl by (eapply lines_inside, W).
      apply in_app_or in Hl as [Hl|[<-|[]]]; [|split; [split; discriminate|left; reflexivity]]. split.
      + rewrite Forall_forall in P. destruct (P l Hl) as [P1 P2]. intro r. split; intros ->; [apply P1|apply P2]; exists r; reflexivity.
      + unfold linesText in Hl. apply in_map_iff in Hl as (o & <- & Ho). rewrite Forall_forall in I. specialize (I o Ho). destruct o as [[n s]|]; [|left; reflexivity]. right. cbn [lineText].
        destruct I as (_ & N & B & _). destruct s as [|c s]; [congruence|]. exists c. split; [rewrite laos_app; apply in_or_app; right; left; reflexivity|]. intros ->. discriminate B.
  Qed.
  Lemma read_document : forall its, Good resolve (TMap its) -> Top its -> read (dataText its) = Some (nodeOf (TMap its)).
  Proof. intros its G T. apply HRead; [apply data_document; assumption|]. apply read_data, G. Qed.
  Lemma doc_parsed : forall r its r', DocFor r its r' ->
    exists raw, decode_raw (treeDecoder ramInBytes read) (dataText its) = Ok raw /\ parse_one (treeDecoder ramInBytes read) raw = Ok r'.
  Proof.
    intros r its r' (_ & _ & G & T & _ & K & (v & t & Hd) & R). pose proof (read_document its G T) as Rd. destruct G as (W & _ & D).
    exists {| rr_version := v; rr_kind := getKind r'; rr_type := t; rr_data := dataText its |}. split.
    - apply decode_raw_ok. split; [reflexivity|]. cbn [treeDecoder dec_header]. rewrite Rd. cbn [optBind]. apply header_iff; [exact D|]. exact Hd.
    - apply parse_one_ok. split; [|exact K]. apply parseRaw_ok. apply (resource_iff ramInBytes read _ (nodeOf (TMap its))); [exact Rd|exact D|exact R].
  Qed.
  Theorem round_trip : forall m, mf_resources m <> [] -> Forall (Formattable resolve ramInBytes formatFloat bytesSize) (mf_resources m) ->
    exists out, print iph formatFloat sprintFloat bytesSize m = Ok out /\ YamlText out /\
      ((forall lines, Lines out lines -> Forall Short lines) ->
       exists m', parse (treeDecoder ramInBytes read) out = Ok m' /\ Forall2 ReadBack (mf_resources m) (mf_resources m')).
  Proof.
    intros [rs] N F. cbn [mf_resources] in *.
    assert (X : exists ds rs', docs iph formatFloat sprintFloat bytesSize rs = Some (map (fun its => its ++ [None])%list ds) /\
      Forall2 ReadBack rs rs' /\ Forall2 (fun its r' => exists r, DocFor r its r') ds rs').
    { clear N. induction F as [|r rs H F IH]; [exists [], []; repeat split; constructor|]. destruct IH as (ds & rs' & E & B & P). destruct (resource_doc r H) as (its & r' & Dr).
      exists (its :: ds), (r' :: rs'). destruct Dr as (Ei & Ir & Rest). split; [|split; constructor; try assumption].
      - unfold docs in E |- *. cbn [map optConcat]. rewrite E, Ir, Ei. reflexivity.
      - apply Rest.
      - exists r. split; [exact Ei|]. split; [exact Ir|exact Rest]. }
    destruct X as (ds & rs' & E & B & P).
    assert (Pr : print iph formatFloat sprintFloat bytesSize {| mf_resources := rs |} = Ok (outText ds)).
    { rewrite print_text. cbn [mf_resources]. rewrite E. unfold outText. rewrite map_map. reflexivity. }
    exists (outText ds). split; [exact Pr|]. split.
    - apply out_yaml. clear - P. induction P as [|its r' ds rs' (r & H) P IH]; constructor; [|exact IH]. apply H.
    - intro S. exists {| mf_resources := rs' |}. split; [|exact B]. assert (Nd : ds <> []).
      { intros ->. inversion P; subst. inversion B; subst. congruence. }
      unfold parse, parseRawString. rewrite (split_out resolve ds Nd); [| |exact S].
      2:{ clear - P. induction P as [|its r' ds rs' (r & H) P IH]; constructor; [|exact IH]. split; [apply H|apply H]. }
      assert (Y : exists raws, otraverse (decode_raw (treeDecoder ramInBytes read)) (map dataText ds) = Ok raws /\ otraverse (parse_one (treeDecoder ramInBytes read)) raws = Ok rs').
      { clear - P HR HRead. induction P as [|its r' ds rs' (r & H) P IH]; [exists []; split; reflexivity|]. destruct IH as (raws & E1 & E2). destruct (doc_parsed r its r' H) as (raw & E3 & E4).
        exists (raw :: raws). cbn [map otraverse]. rewrite E3. cbn [obind]. rewrite E1. cbn [obind otraverse]. rewrite E4. cbn [obind]. rewrite E2. split; reflexivity. }
      destruct Y as (raws & Y1 & Y2). rewrite Y1. cbn [obind]. rewrite Y2. reflexivity.
  Qed.
End Trip.
