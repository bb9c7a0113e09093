(** container/ts/mixer_test.go TestMixer_SetTsHeader on the model with memory: what Media and the sequence-header caches
    hold. A test of the model against the authors' expectations. *)
From Verif Require Import Base.Go Base.IO Model.AmfTypes Model.Packet Model.Flv Model.Parsers Model.Ts Model.TsAlias Conform.Media.

Definition dbl (_ need : Z) : Z := 2 * need.
Definition cache (f : amix -> buf) (s : world) : option bytes :=
  option_map (fun x => rd (wd_mem s) (bbytes (f x))) (wd_mixes s 0).
Definition shown (s : world) (k : nat) : option bytes := option_map (rd (wd_mem s)) (ap_media (wd_pkts s k)).
Definition mixer_test : world * list (res unit) :=
  arun dbl world0 [ANewMix 0 buffer0; ASet 0 (dm PktVideo [23; 1; 0; 0; 0; 0; 0; 0; 1]); ASaveAVC 0 0;
    ASet 1 (dm PktAudio [175; 0; 18; 16]); ASaveAAC 0 1; AHeader 0].
Example mixer_test_ok : snd mixer_test = repeat (Ok tt) 6.
Proof. vm_compute. reflexivity. Qed.
Example mixer_test_media : shown (fst mixer_test) 0 = Some [71; 65; 0; 49] /\ shown (fst mixer_test) 1 = Some [].
Proof. vm_compute. auto. Qed.
Example mixer_test_avc : cache am_avc (fst mixer_test) = Some
    [71; 65; 0; 49; 7; 80; 0; 0; 0; 0; 126; 0; 157; 0; 255; 255; 255; 255; 255; 255; 255; 255; 255; 255; 255; 255;
    255; 255; 255; 255; 255; 255; 255; 255; 255; 255; 255; 255; 255; 255; 255; 255; 255; 255; 255; 255; 255; 255;
    255; 255; 255; 255; 255; 255; 255; 255; 255; 255; 255; 255; 255; 255; 255; 255; 255; 255; 255; 255; 255; 255;
    255; 255; 255; 255; 255; 255; 255; 255; 255; 255; 255; 255; 255; 255; 255; 255; 255; 255; 255; 255; 255; 255;
    255; 255; 255; 255; 255; 255; 255; 255; 255; 255; 255; 255; 255; 255; 255; 255; 255; 255; 255; 255; 255; 255;
    255; 255; 255; 255; 255; 255; 255; 255; 255; 255; 255; 255; 255; 255; 255; 255; 255; 255; 255; 255; 255; 255;
    255; 255; 255; 255; 255; 255; 255; 255; 255; 255; 255; 255; 255; 255; 255; 255; 255; 255; 255; 255; 255; 255;
    255; 255; 255; 255; 255; 255; 255; 255; 255; 255; 255; 255; 0; 0; 1; 224; 0; 12; 128; 128; 5; 33; 0; 1; 0; 1;
    0; 0; 0; 1].
Proof. vm_compute. reflexivity. Qed.
Example mixer_test_aac : cache am_aac (fst mixer_test) = Some
    [71; 65; 1; 49; 169; 0; 255; 255; 255; 255; 255; 255; 255; 255; 255; 255; 255; 255; 255; 255; 255; 255; 255;
    255; 255; 255; 255; 255; 255; 255; 255; 255; 255; 255; 255; 255; 255; 255; 255; 255; 255; 255; 255; 255; 255;
    255; 255; 255; 255; 255; 255; 255; 255; 255; 255; 255; 255; 255; 255; 255; 255; 255; 255; 255; 255; 255; 255;
    255; 255; 255; 255; 255; 255; 255; 255; 255; 255; 255; 255; 255; 255; 255; 255; 255; 255; 255; 255; 255; 255;
    255; 255; 255; 255; 255; 255; 255; 255; 255; 255; 255; 255; 255; 255; 255; 255; 255; 255; 255; 255; 255; 255;
    255; 255; 255; 255; 255; 255; 255; 255; 255; 255; 255; 255; 255; 255; 255; 255; 255; 255; 255; 255; 255; 255;
    255; 255; 255; 255; 255; 255; 255; 255; 255; 255; 255; 255; 255; 255; 255; 255; 255; 255; 255; 255; 255; 255;
    255; 255; 255; 255; 255; 255; 255; 255; 255; 255; 255; 255; 255; 255; 255; 255; 255; 255; 255; 0; 0; 1; 192;
    0; 8; 128; 128; 5; 33; 0; 1; 0; 1].
Proof. vm_compute. reflexivity. Qed.
