(** Generated by /verif/tools/gen_dict.py from /repo/include/cardano/bip39_dictionary.hpp:81-21766.
    A word is the big-endian number of its (UTF-8) bytes, as spelled by its "\x.." escapes; no word is empty or starts with a
    zero byte, so the bytes are recovered by [word_bytes] of Model_Mnemonic. *)
From Verif Require Import Base.

(** bip39_dictionary.hpp:82-2131 *)
Definition dict_chinese_simplified : list Z := [
  0xe79a84; 0xe4b880; 0xe698af; 0xe59ca8; 0xe4b88d; 0xe4ba86; 0xe69c89; 0xe5928c;
  0xe4baba; 0xe8bf99; 0xe4b8ad; 0xe5a4a7; 0xe4b8ba; 0xe4b88a; 0xe4b8aa; 0xe59bbd;
  0xe68891; 0xe4bba5; 0xe8a681; 0xe4bb96; 0xe697b6; 0xe69da5; 0xe794a8; 0xe4bbac;
  0xe7949f; 0xe588b0; 0xe4bd9c; 0xe59cb0; 0xe4ba8e; 0xe587ba; 0xe5b0b1; 0xe58886;
  0xe5afb9; 0xe68890; 0xe4bc9a; 0xe58faf; 0xe4b8bb; 0xe58f91; 0xe5b9b4; 0xe58aa8;
  0xe5908c; 0xe5b7a5; 0xe4b99f; 0xe883bd; 0xe4b88b; 0xe8bf87; 0xe5ad90; 0xe8afb4;
  0xe4baa7; 0xe7a78d; 0xe99da2; 0xe8808c; 0xe696b9; 0xe5908e; 0xe5a49a; 0xe5ae9a;
  0xe8a18c; 0xe5ada6; 0xe6b395; 0xe68980; 0xe6b091; 0xe5be97; 0xe7bb8f; 0xe58d81;
  0xe4b889; 0xe4b98b; 0xe8bf9b; 0xe79d80; 0xe7ad89; 0xe983a8; 0xe5baa6; 0xe5aeb6;
  0xe794b5; 0xe58a9b; 0xe9878c; 0xe5a682; 0xe6b0b4; 0xe58c96; 0xe9ab98; 0xe887aa;
  0xe4ba8c; 0xe79086; 0xe8b5b7; 0xe5b08f; 0xe789a9; 0xe78eb0; 0xe5ae9e; 0xe58aa0;
  0xe9878f; 0xe983bd; 0xe4b8a4; 0xe4bd93; 0xe588b6; 0xe69cba; 0xe5bd93; 0xe4bdbf;
  0xe782b9; 0xe4bb8e; 0xe4b89a; 0xe69cac; 0xe58ebb; 0xe68a8a; 0xe680a7; 0xe5a5bd;
  0xe5ba94; 0xe5bc80; 0xe5ae83; 0xe59088; 0xe8bf98; 0xe59ba0; 0xe794b1; 0xe585b6;
  0xe4ba9b; 0xe784b6; 0xe5898d; 0xe5a496; 0xe5a4a9; 0xe694bf; 0xe59b9b; 0xe697a5;
  0xe982a3; 0xe7a4be; 0xe4b989; 0xe4ba8b; 0xe5b9b3; 0xe5bda2; 0xe79bb8; 0xe585a8;
  0xe8a1a8; 0xe997b4; 0xe6a0b7; 0xe4b88e; 0xe585b3; 0xe59084; 0xe9878d; 0xe696b0;
  0xe7babf; 0xe58685; 0xe695b0; 0xe6ada3; 0xe5bf83; 0xe58f8d; 0xe4bda0; 0xe6988e;
  0xe79c8b; 0xe58e9f; 0xe58f88; 0xe4b988; 0xe588a9; 0xe6af94; 0xe68896; 0xe4bd86;
  0xe8b4a8; 0xe6b094; 0xe7acac; 0xe59091; 0xe98193; 0xe591bd; 0xe6ada4; 0xe58f98;
  0xe69da1; 0xe58faa; 0xe6b2a1; 0xe7bb93; 0xe8a7a3; 0xe997ae; 0xe6848f; 0xe5bbba;
  0xe69c88; 0xe585ac; 0xe697a0; 0xe7b3bb; 0xe5869b; 0xe5be88; 0xe68385; 0xe88085;
  0xe69c80; 0xe7ab8b; 0xe4bba3; 0xe683b3; 0xe5b7b2; 0xe9809a; 0xe5b9b6; 0xe68f90;
  0xe79bb4; 0xe9a298; 0xe5859a; 0xe7a88b; 0xe5b195; 0xe4ba94; 0xe69e9c; 0xe69699;
  0xe8b1a1; 0xe59198; 0xe99da9; 0xe4bd8d; 0xe585a5; 0xe5b8b8; 0xe69687; 0xe680bb;
  0xe6aca1; 0xe59381; 0xe5bc8f; 0xe6b4bb; 0xe8aebe; 0xe58f8a; 0xe7aea1; 0xe789b9;
  0xe4bbb6; 0xe995bf; 0xe6b182; 0xe88081; 0xe5a4b4; 0xe59fba; 0xe8b584; 0xe8beb9;
  0xe6b581; 0xe8b7af; 0xe7baa7; 0xe5b091; 0xe59bbe; 0xe5b1b1; 0xe7bb9f; 0xe68ea5;
  0xe79fa5; 0xe8be83; 0xe5b086; 0xe7bb84; 0xe8a781; 0xe8aea1; 0xe588ab; 0xe5a5b9;
  0xe6898b; 0xe8a792; 0xe69c9f; 0xe6a0b9; 0xe8aeba; 0xe8bf90; 0xe5869c; 0xe68c87;
  0xe587a0; 0xe4b99d; 0xe58cba; 0xe5bcba; 0xe694be; 0xe586b3; 0xe8a5bf; 0xe8a2ab;
  0xe5b9b2; 0xe5819a; 0xe5bf85; 0xe68898; 0xe58588; 0xe59b9e; 0xe58899; 0xe4bbbb;
  0xe58f96; 0xe68dae; 0xe5a484; 0xe9989f; 0xe58d97; 0xe7bb99; 0xe889b2; 0xe58589;
  0xe997a8; 0xe58db3; 0xe4bf9d; 0xe6b2bb; 0xe58c97; 0xe980a0; 0xe799be; 0xe8a784;
  0xe783ad; 0xe9a286; 0xe4b883; 0xe6b5b7; 0xe58fa3; 0xe4b89c; 0xe5afbc; 0xe599a8;
  0xe58e8b; 0xe5bf97; 0xe4b896; 0xe98791; 0xe5a29e; 0xe4ba89; 0xe6b58e; 0xe998b6;
  0xe6b2b9; 0xe6809d; 0xe69caf; 0xe69e81; 0xe4baa4; 0xe58f97; 0xe88194; 0xe4bb80;
  0xe8aea4; 0xe585ad; 0xe585b1; 0xe69d83; 0xe694b6; 0xe8af81; 0xe694b9; 0xe6b885;
  0xe7be8e; 0xe5868d; 0xe98787; 0xe8bdac; 0xe69bb4; 0xe58d95; 0xe9a38e; 0xe58887;
  0xe68993; 0xe799bd; 0xe69599; 0xe9809f; 0xe88ab1; 0xe5b8a6; 0xe5ae89; 0xe59cba;
  0xe8baab; 0xe8bda6; 0xe4be8b; 0xe79c9f; 0xe58aa1; 0xe585b7; 0xe4b887; 0xe6af8f;
  0xe79bae; 0xe887b3; 0xe8bebe; 0xe8b5b0; 0xe7a7af; 0xe7a4ba; 0xe8aeae; 0xe5a3b0;
  0xe68aa5; 0xe69697; 0xe5ae8c; 0xe7b1bb; 0xe585ab; 0xe7a6bb; 0xe58d8e; 0xe5908d;
  0xe7a1ae; 0xe6898d; 0xe7a791; 0xe5bca0; 0xe4bfa1; 0xe9a9ac; 0xe88a82; 0xe8af9d;
  0xe7b1b3; 0xe695b4; 0xe7a9ba; 0xe58583; 0xe586b5; 0xe4bb8a; 0xe99b86; 0xe6b8a9;
  0xe4bca0; 0xe59c9f; 0xe8aeb8; 0xe6ada5; 0xe7bea4; 0xe5b9bf; 0xe79fb3; 0xe8aeb0;
  0xe99c80; 0xe6aeb5; 0xe7a094; 0xe7958c; 0xe68b89; 0xe69e97; 0xe5be8b; 0xe58fab;
  0xe4b894; 0xe7a9b6; 0xe8a782; 0xe8b68a; 0xe7bb87; 0xe8a385; 0xe5bdb1; 0xe7ae97;
  0xe4bd8e; 0xe68c81; 0xe99fb3; 0xe4bc97; 0xe4b9a6; 0xe5b883; 0xe5a48d; 0xe5aeb9;
  0xe584bf; 0xe9a1bb; 0xe99985; 0xe59586; 0xe99d9e; 0xe9aa8c; 0xe8bf9e; 0xe696ad;
  0xe6b7b1; 0xe99abe; 0xe8bf91; 0xe79fbf; 0xe58d83; 0xe591a8; 0xe5a794; 0xe7b4a0;
  0xe68a80; 0xe5a487; 0xe58d8a; 0xe58a9e; 0xe99d92; 0xe79c81; 0xe58897; 0xe4b9a0;
  0xe5938d; 0xe7baa6; 0xe694af; 0xe888ac; 0xe58fb2; 0xe6849f; 0xe58ab3; 0xe4bebf;
  0xe59ba2; 0xe5be80; 0xe985b8; 0xe58e86; 0xe5b882; 0xe5858b; 0xe4bd95; 0xe999a4;
  0xe6b688; 0xe69e84; 0xe5ba9c; 0xe7a7b0; 0xe5a4aa; 0xe58786; 0xe7b2be; 0xe580bc;
  0xe58fb7; 0xe78e87; 0xe6978f; 0xe7bbb4; 0xe58892; 0xe98089; 0xe6a087; 0xe58699;
  0xe5ad98; 0xe58099; 0xe6af9b; 0xe4bab2; 0xe5bfab; 0xe69588; 0xe696af; 0xe999a2;
  0xe69fa5; 0xe6b19f; 0xe59e8b; 0xe79cbc; 0xe78e8b; 0xe68c89; 0xe6a0bc; 0xe585bb;
  0xe69893; 0xe7bdae; 0xe6b4be; 0xe5b182; 0xe78987; 0xe5a78b; 0xe58db4; 0xe4b893;
  0xe78ab6; 0xe882b2; 0xe58e82; 0xe4baac; 0xe8af86; 0xe98082; 0xe5b19e; 0xe59c86;
  0xe58c85; 0xe781ab; 0xe4bd8f; 0xe8b083; 0xe6bba1; 0xe58ebf; 0xe5b180; 0xe785a7;
  0xe58f82; 0xe7baa2; 0xe7bb86; 0xe5bc95; 0xe590ac; 0xe8afa5; 0xe99381; 0xe4bbb7;
  0xe4b8a5; 0xe9a696; 0xe5ba95; 0xe6b6b2; 0xe5ae98; 0xe5beb7; 0xe99a8f; 0xe79785;
  0xe88b8f; 0xe5a4b1; 0xe5b094; 0xe6adbb; 0xe8aeb2; 0xe9858d; 0xe5a5b3; 0xe9bb84;
  0xe68ea8; 0xe698be; 0xe8b088; 0xe7bdaa; 0xe7a59e; 0xe889ba; 0xe591a2; 0xe5b8ad;
  0xe590ab; 0xe4bc81; 0xe69c9b; 0xe5af86; 0xe689b9; 0xe890a5; 0xe9a1b9; 0xe998b2;
  0xe4b8be; 0xe79083; 0xe88bb1; 0xe6b0a7; 0xe58abf; 0xe5918a; 0xe69d8e; 0xe58fb0;
  0xe890bd; 0xe69ca8; 0xe5b8ae; 0xe8bdae; 0xe7a0b4; 0xe4ba9a; 0xe5b888; 0xe59bb4;
  0xe6b3a8; 0xe8bf9c; 0xe5ad97; 0xe69d90; 0xe68e92; 0xe4be9b; 0xe6b2b3; 0xe68081;
  0xe5b081; 0xe58fa6; 0xe696bd; 0xe5878f; 0xe6a091; 0xe6bab6; 0xe6808e; 0xe6ada2;
  0xe6a188; 0xe8a880; 0xe5a3ab; 0xe59d87; 0xe6ada6; 0xe59bba; 0xe58fb6; 0xe9b1bc;
  0xe6b3a2; 0xe8a786; 0xe4bb85; 0xe8b4b9; 0xe7b4a7; 0xe788b1; 0xe5b7a6; 0xe7aba0;
  0xe697a9; 0xe69c9d; 0xe5aeb3; 0xe7bbad; 0xe8bdbb; 0xe69c8d; 0xe8af95; 0xe9a39f;
  0xe58585; 0xe585b5; 0xe6ba90; 0xe588a4; 0xe68aa4; 0xe58fb8; 0xe8b6b3; 0xe69f90;
  0xe7bb83; 0xe5b7ae; 0xe887b4; 0xe69dbf; 0xe794b0; 0xe9998d; 0xe9bb91; 0xe78aaf;
  0xe8b49f; 0xe587bb; 0xe88c83; 0xe7bba7; 0xe585b4; 0xe4bcbc; 0xe4bd99; 0xe59d9a;
  0xe69bb2; 0xe8be93; 0xe4bfae; 0xe69585; 0xe59f8e; 0xe5a4ab; 0xe5a49f; 0xe98081;
  0xe7ac94; 0xe888b9; 0xe58da0; 0xe58fb3; 0xe8b4a2; 0xe59083; 0xe5af8c; 0xe698a5;
  0xe8818c; 0xe8a789; 0xe6b189; 0xe794bb; 0xe58a9f; 0xe5b7b4; 0xe8b79f; 0xe899bd;
  0xe69d82; 0xe9a39e; 0xe6a380; 0xe590b8; 0xe58aa9; 0xe58d87; 0xe998b3; 0xe4ba92;
  0xe5889d; 0xe5889b; 0xe68a97; 0xe88083; 0xe68a95; 0xe59d8f; 0xe7ad96; 0xe58fa4;
  0xe5be84; 0xe68da2; 0xe69caa; 0xe8b791; 0xe79599; 0xe992a2; 0xe69bbe; 0xe7abaf;
  0xe8b4a3; 0xe7ab99; 0xe7ae80; 0xe8bfb0; 0xe992b1; 0xe589af; 0xe5b0bd; 0xe5b89d;
  0xe5b084; 0xe88d89; 0xe586b2; 0xe689bf; 0xe78bac; 0xe4bba4; 0xe99990; 0xe998bf;
  0xe5aea3; 0xe78eaf; 0xe58f8c; 0xe8afb7; 0xe8b685; 0xe5beae; 0xe8aea9; 0xe68ea7;
  0xe5b79e; 0xe889af; 0xe8bdb4; 0xe689be; 0xe590a6; 0xe7baaa; 0xe79b8a; 0xe4be9d;
  0xe4bc98; 0xe9a1b6; 0xe7a180; 0xe8bdbd; 0xe58092; 0xe688bf; 0xe7aa81; 0xe59d90;
  0xe7b289; 0xe6958c; 0xe795a5; 0xe5aea2; 0xe8a281; 0xe586b7; 0xe8839c; 0xe7bb9d;
  0xe69e90; 0xe59d97; 0xe58982; 0xe6b58b; 0xe4b89d; 0xe58d8f; 0xe8af89; 0xe5bfb5;
  0xe99988; 0xe4bb8d; 0xe7bd97; 0xe79b90; 0xe58f8b; 0xe6b48b; 0xe99499; 0xe88ba6;
  0xe5a49c; 0xe58891; 0xe7a7bb; 0xe9a291; 0xe98090; 0xe99da0; 0xe6b7b7; 0xe6af8d;
  0xe79fad; 0xe79aae; 0xe7bb88; 0xe8819a; 0xe6b1bd; 0xe69d91; 0xe4ba91; 0xe593aa;
  0xe697a2; 0xe8b79d; 0xe58dab; 0xe5819c; 0xe78388; 0xe5a4ae; 0xe5af9f; 0xe783a7;
  0xe8bf85; 0xe5a283; 0xe88ba5; 0xe58db0; 0xe6b4b2; 0xe588bb; 0xe68bac; 0xe6bf80;
  0xe5ad94; 0xe6909e; 0xe7949a; 0xe5aea4; 0xe5be85; 0xe6a0b8; 0xe6a0a1; 0xe695a3;
  0xe4beb5; 0xe590a7; 0xe794b2; 0xe6b8b8; 0xe4b985; 0xe88f9c; 0xe591b3; 0xe697a7;
  0xe6a8a1; 0xe6b996; 0xe8b4a7; 0xe68d9f; 0xe9a284; 0xe998bb; 0xe6afab; 0xe699ae;
  0xe7a8b3; 0xe4b999; 0xe5a688; 0xe6a48d; 0xe681af; 0xe689a9; 0xe993b6; 0xe8afad;
  0xe68ca5; 0xe98592; 0xe5ae88; 0xe68bbf; 0xe5ba8f; 0xe7bab8; 0xe58cbb; 0xe7bcba;
  0xe99ba8; 0xe59097; 0xe99288; 0xe58898; 0xe5958a; 0xe680a5; 0xe594b1; 0xe8afaf;
  0xe8aead; 0xe684bf; 0xe5aea1; 0xe99984; 0xe88eb7; 0xe88cb6; 0xe9b29c; 0xe7b2ae;
  0xe696a4; 0xe5ada9; 0xe884b1; 0xe7a1ab; 0xe882a5; 0xe59684; 0xe9be99; 0xe6bc94;
  0xe788b6; 0xe6b890; 0xe8a180; 0xe6aca2; 0xe6a2b0; 0xe68e8c; 0xe6ad8c; 0xe6b299;
  0xe5889a; 0xe694bb; 0xe8b093; 0xe79bbe; 0xe8aea8; 0xe6999a; 0xe7b292; 0xe4b9b1;
  0xe78783; 0xe79f9b; 0xe4b98e; 0xe69d80; 0xe88daf; 0xe5ae81; 0xe9b281; 0xe8b4b5;
  0xe9929f; 0xe785a4; 0xe8afbb; 0xe78fad; 0xe4bcaf; 0xe9a699; 0xe4bb8b; 0xe8bfab;
  0xe58fa5; 0xe4b8b0; 0xe59fb9; 0xe68fa1; 0xe585b0; 0xe68b85; 0xe5bca6; 0xe89b8b;
  0xe6b289; 0xe58187; 0xe7a9bf; 0xe689a7; 0xe7ad94; 0xe4b990; 0xe8b081; 0xe9a1ba;
  0xe7839f; 0xe7bca9; 0xe5be81; 0xe884b8; 0xe5969c; 0xe69dbe; 0xe8849a; 0xe59bb0;
  0xe5bc82; 0xe5858d; 0xe8838c; 0xe6989f; 0xe7a68f; 0xe4b9b0; 0xe69f93; 0xe4ba95;
  0xe6a682; 0xe685a2; 0xe68095; 0xe7a381; 0xe5808d; 0xe7a596; 0xe79a87; 0xe4bf83;
  0xe99d99; 0xe8a1a5; 0xe8af84; 0xe7bfbb; 0xe88289; 0xe8b7b5; 0xe5b0bc; 0xe8a1a3;
  0xe5aebd; 0xe689ac; 0xe6a389; 0xe5b88c; 0xe4bca4; 0xe6938d; 0xe59e82; 0xe7a78b;
  0xe5ae9c; 0xe6b0a2; 0xe5a597; 0xe79da3; 0xe68caf; 0xe69eb6; 0xe4baae; 0xe69cab;
  0xe5aeaa; 0xe5ba86; 0xe7bc96; 0xe7899b; 0xe8a7a6; 0xe698a0; 0xe99bb7; 0xe99480;
  0xe8af97; 0xe5baa7; 0xe5b185; 0xe68a93; 0xe8a382; 0xe8839e; 0xe591bc; 0xe5a898;
  0xe699af; 0xe5a881; 0xe7bbbf; 0xe699b6; 0xe58e9a; 0xe79b9f; 0xe8a1a1; 0xe9b8a1;
  0xe5ad99; 0xe5bbb6; 0xe58db1; 0xe883b6; 0xe5b18b; 0xe4b9a1; 0xe4b8b4; 0xe99986;
  0xe9a1be; 0xe68e89; 0xe59180; 0xe781af; 0xe5b281; 0xe68eaa; 0xe69d9f; 0xe88090;
  0xe589a7; 0xe78e89; 0xe8b5b5; 0xe8b7b3; 0xe593a5; 0xe5ada3; 0xe8afbe; 0xe587af;
  0xe883a1; 0xe9a29d; 0xe6acbe; 0xe7bb8d; 0xe58db7; 0xe9bd90; 0xe4bc9f; 0xe892b8;
  0xe6ae96; 0xe6b0b8; 0xe5ae97; 0xe88b97; 0xe5b79d; 0xe78289; 0xe5b2a9; 0xe5bcb1;
  0xe99bb6; 0xe69da8; 0xe5a58f; 0xe6b2bf; 0xe99cb2; 0xe69d86; 0xe68ea2; 0xe6bb91;
  0xe99587; 0xe9a5ad; 0xe6b593; 0xe888aa; 0xe68080; 0xe8b5b6; 0xe5ba93; 0xe5a4ba;
  0xe4bc8a; 0xe781b5; 0xe7a88e; 0xe98094; 0xe781ad; 0xe8b59b; 0xe5bd92; 0xe58fac;
  0xe9bc93; 0xe692ad; 0xe79b98; 0xe8a381; 0xe999a9; 0xe5bab7; 0xe594af; 0xe5bd95;
  0xe88f8c; 0xe7baaf; 0xe5809f; 0xe7b396; 0xe79b96; 0xe6a8aa; 0xe7aca6; 0xe7a781;
  0xe58aaa; 0xe5a082; 0xe59f9f; 0xe69eaa; 0xe6b6a6; 0xe5b985; 0xe59388; 0xe7ab9f;
  0xe7869f; 0xe899ab; 0xe6b3bd; 0xe88491; 0xe5a3a4; 0xe7a2b3; 0xe6aca7; 0xe9818d;
  0xe4bea7; 0xe5afa8; 0xe695a2; 0xe5bdbb; 0xe89991; 0xe6969c; 0xe89684; 0xe5baad;
  0xe7bab3; 0xe5bcb9; 0xe9a5b2; 0xe4bcb8; 0xe68a98; 0xe9baa6; 0xe6b9bf; 0xe69a97;
  0xe88db7; 0xe793a6; 0xe5a19e; 0xe5ba8a; 0xe7ad91; 0xe681b6; 0xe688b7; 0xe8aebf;
  0xe5a194; 0xe5a587; 0xe9808f; 0xe6a281; 0xe58880; 0xe6978b; 0xe8bfb9; 0xe58da1;
  0xe6b0af; 0xe98187; 0xe4bbbd; 0xe6af92; 0xe6b3a5; 0xe98080; 0xe6b497; 0xe69186;
  0xe781b0; 0xe5bda9; 0xe58d96; 0xe88097; 0xe5a48f; 0xe68ba9; 0xe5bf99; 0xe9939c;
  0xe78cae; 0xe7a1ac; 0xe4ba88; 0xe7b981; 0xe59c88; 0xe99baa; 0xe587bd; 0xe4baa6;
  0xe68abd; 0xe7af87; 0xe998b5; 0xe998b4; 0xe4b881; 0xe5b0ba; 0xe8bfbd; 0xe5a086;
  0xe99b84; 0xe8bf8e; 0xe6b39b; 0xe788b8; 0xe6a5bc; 0xe981bf; 0xe8b08b; 0xe590a8;
  0xe9878e; 0xe78caa; 0xe69797; 0xe7b4af; 0xe5818f; 0xe585b8; 0xe9a686; 0xe7b4a2;
  0xe7a7a6; 0xe88482; 0xe6bdae; 0xe788b7; 0xe8b186; 0xe5bfbd; 0xe68998; 0xe6838a;
  0xe5a191; 0xe98197; 0xe68488; 0xe69cb1; 0xe69bbf; 0xe7baa4; 0xe7b297; 0xe580be;
  0xe5b09a; 0xe7979b; 0xe6a59a; 0xe8b0a2; 0xe5a58b; 0xe8b4ad; 0xe7a3a8; 0xe5909b;
  0xe6b1a0; 0xe69781; 0xe7a28e; 0xe9aaa8; 0xe79b91; 0xe68d95; 0xe5bc9f; 0xe69ab4;
  0xe589b2; 0xe8b4af; 0xe6ae8a; 0xe9878a; 0xe8af8d; 0xe4baa1; 0xe5a381; 0xe9a1bf;
  0xe5ae9d; 0xe58d88; 0xe5b098; 0xe997bb; 0xe68fad; 0xe782ae; 0xe6ae8b; 0xe586ac;
  0xe6a1a5; 0xe5a687; 0xe8ada6; 0xe7bbbc; 0xe68b9b; 0xe590b4; 0xe4bb98; 0xe6b5ae;
  0xe981ad; 0xe5be90; 0xe682a8; 0xe69187; 0xe8b0b7; 0xe8b59e; 0xe7aeb1; 0xe99a94;
  0xe8aea2; 0xe794b7; 0xe590b9; 0xe59bad; 0xe7bab7; 0xe59490; 0xe8b4a5; 0xe5ae8b;
  0xe78ebb; 0xe5b7a8; 0xe88095; 0xe59da6; 0xe88da3; 0xe997ad; 0xe6b9be; 0xe994ae;
  0xe587a1; 0xe9a9bb; 0xe99485; 0xe69591; 0xe681a9; 0xe589a5; 0xe5879d; 0xe7a2b1;
  0xe9bdbf; 0xe688aa; 0xe782bc; 0xe9babb; 0xe7baba; 0xe7a681; 0xe5ba9f; 0xe79b9b;
  0xe78988; 0xe7bc93; 0xe58780; 0xe79d9b; 0xe6988c; 0xe5a99a; 0xe6b689; 0xe7ad92;
  0xe598b4; 0xe68f92; 0xe5b2b8; 0xe69c97; 0xe5ba84; 0xe8a197; 0xe8978f; 0xe5a791;
  0xe8b4b8; 0xe88590; 0xe5a5b4; 0xe595a6; 0xe683af; 0xe4b998; 0xe4bc99; 0xe681a2;
  0xe58c80; 0xe7bab1; 0xe6898e; 0xe8bea9; 0xe880b3; 0xe5bdaa; 0xe887a3; 0xe4babf;
  0xe79283; 0xe68ab5; 0xe88489; 0xe7a780; 0xe890a8; 0xe4bf84; 0xe7bd91; 0xe8889e;
  0xe5ba97; 0xe596b7; 0xe7bab5; 0xe5afb8; 0xe6b197; 0xe68c82; 0xe6b4aa; 0xe8b4ba;
  0xe997aa; 0xe69fac; 0xe78886; 0xe783af; 0xe6b4a5; 0xe7a8bb; 0xe5a299; 0xe8bdaf;
  0xe58b87; 0xe5838f; 0xe6bb9a; 0xe58e98; 0xe89299; 0xe88ab3; 0xe882af; 0xe59da1;
  0xe69fb1; 0xe88da1; 0xe885bf; 0xe4bbaa; 0xe69785; 0xe5b0be; 0xe8bda7; 0xe586b0;
  0xe8b4a1; 0xe799bb; 0xe9bb8e; 0xe5898a; 0xe992bb; 0xe58b92; 0xe98083; 0xe99a9c;
  0xe6b0a8; 0xe983ad; 0xe5b3b0; 0xe5b881; 0xe6b8af; 0xe4bc8f; 0xe8bda8; 0xe4baa9;
  0xe6af95; 0xe693a6; 0xe88eab; 0xe588ba; 0xe6b5aa; 0xe7a798; 0xe68fb4; 0xe6a0aa;
  0xe581a5; 0xe594ae; 0xe882a1; 0xe5b29b; 0xe79498; 0xe6b3a1; 0xe79da1; 0xe7aba5;
  0xe993b8; 0xe6b1a4; 0xe99880; 0xe4bc91; 0xe6b187; 0xe8888d; 0xe789a7; 0xe7bb95;
  0xe782b8; 0xe593b2; 0xe7a3b7; 0xe7bba9; 0xe69c8b; 0xe6b7a1; 0xe5b096; 0xe590af;
  0xe999b7; 0xe69fb4; 0xe59188; 0xe5be92; 0xe9a29c; 0xe6b3aa; 0xe7a88d; 0xe5bf98;
  0xe6b3b5; 0xe8939d; 0xe68b96; 0xe6b49e; 0xe68e88; 0xe9959c; 0xe8be9b; 0xe5a3ae;
  0xe9948b; 0xe8b4ab; 0xe8999a; 0xe5bcaf; 0xe691a9; 0xe6b3b0; 0xe5b9bc; 0xe5bbb7;
  0xe5b08a; 0xe7aa97; 0xe7bab2; 0xe5bc84; 0xe99ab6; 0xe79691; 0xe6b08f; 0xe5aeab;
  0xe5a790; 0xe99c87; 0xe7919e; 0xe680aa; 0xe5b0a4; 0xe790b4; 0xe5beaa; 0xe68f8f;
  0xe8869c; 0xe8bf9d; 0xe5a4b9; 0xe885b0; 0xe7bc98; 0xe78fa0; 0xe7a9b7; 0xe6a3ae;
  0xe69e9d; 0xe7abb9; 0xe6b29f; 0xe582ac; 0xe7bbb3; 0xe5bf86; 0xe982a6; 0xe589a9;
  0xe5b9b8; 0xe6b586; 0xe6a08f; 0xe68ba5; 0xe78999; 0xe8b4ae; 0xe7a4bc; 0xe6bba4;
  0xe992a0; 0xe7bab9; 0xe7bda2; 0xe68b8d; 0xe592b1; 0xe5968a; 0xe8a296; 0xe59f83;
  0xe58ba4; 0xe7bd9a; 0xe784a6; 0xe6bd9c; 0xe4bc8d; 0xe5a2a8; 0xe6acb2; 0xe7bc9d;
  0xe5a793; 0xe5888a; 0xe9a5b1; 0xe4bbbf; 0xe5a596; 0xe9939d; 0xe9acbc; 0xe4b8bd;
  0xe8b7a8; 0xe9bb98; 0xe68c96; 0xe993be; 0xe689ab; 0xe5969d; 0xe8a28b; 0xe782ad;
  0xe6b1a1; 0xe5b995; 0xe8afb8; 0xe5bca7; 0xe58ab1; 0xe6a285; 0xe5a5b6; 0xe6b481;
  0xe781be; 0xe8889f; 0xe989b4; 0xe88baf; 0xe8aebc; 0xe68ab1; 0xe6af81; 0xe68782;
  0xe5af92; 0xe699ba; 0xe59f94; 0xe5af84; 0xe5b18a; 0xe8b783; 0xe6b8a1; 0xe68c91;
  0xe4b8b9; 0xe889b0; 0xe8b49d; 0xe7a2b0; 0xe68b94; 0xe788b9; 0xe688b4; 0xe7a081;
  0xe6a2a6; 0xe88abd; 0xe78694; 0xe8b5a4; 0xe6b894; 0xe593ad; 0xe695ac; 0xe9a297;
  0xe5a594; 0xe99385; 0xe4bbb2; 0xe8998e; 0xe7a880; 0xe5a6b9; 0xe4b98f; 0xe78f8d;
  0xe794b3; 0xe6a18c; 0xe981b5; 0xe58581; 0xe99a86; 0xe89eba; 0xe4bb93; 0xe9ad8f;
  0xe99490; 0xe69993; 0xe6b0ae; 0xe585bc; 0xe99a90; 0xe7a28d; 0xe8b5ab; 0xe68ba8;
  0xe5bfa0; 0xe88283; 0xe7bcb8; 0xe789b5; 0xe68aa2; 0xe58d9a; 0xe5b7a7; 0xe5a3b3;
  0xe58584; 0xe69d9c; 0xe8aeaf; 0xe8af9a; 0xe7a2a7; 0xe7a5a5; 0xe69faf; 0xe9a1b5;
  0xe5b7a1; 0xe79fa9; 0xe682b2; 0xe7818c; 0xe9be84; 0xe4bca6; 0xe7a5a8; 0xe5afbb;
  0xe6a182; 0xe993ba; 0xe59ca3; 0xe68190; 0xe681b0; 0xe98391; 0xe8b6a3; 0xe68aac;
  0xe88d92; 0xe885be; 0xe8b4b4; 0xe69f94; 0xe6bbb4; 0xe78c9b; 0xe99894; 0xe8be86;
  0xe5a6bb; 0xe5a1ab; 0xe692a4; 0xe582a8; 0xe7adbe; 0xe997b9; 0xe689b0; 0xe7b4ab;
  0xe7a082; 0xe98092; 0xe6888f; 0xe5908a; 0xe999b6; 0xe4bc90; 0xe59682; 0xe79697;
  0xe793b6; 0xe5a986; 0xe68a9a; 0xe88782; 0xe691b8; 0xe5bf8d; 0xe899be; 0xe89ca1;
  0xe982bb; 0xe883b8; 0xe5b7a9; 0xe68ca4; 0xe581b6; 0xe5bc83; 0xe6a7bd; 0xe58ab2;
  0xe4b9b3; 0xe98293; 0xe59089; 0xe4bb81; 0xe78382; 0xe7a096; 0xe7a79f; 0xe4b98c;
  0xe888b0; 0xe4bcb4; 0xe7939c; 0xe6b585; 0xe4b899; 0xe69a82; 0xe787a5; 0xe6a9a1;
  0xe69fb3; 0xe8bfb7; 0xe69a96; 0xe7898c; 0xe7a7a7; 0xe88386; 0xe8afa6; 0xe7b0a7;
  0xe8b88f; 0xe793b7; 0xe8b0b1; 0xe59186; 0xe5aebe; 0xe7b38a; 0xe6b49b; 0xe8be89;
  0xe684a4; 0xe7ab9e; 0xe99a99; 0xe68092; 0xe7b298; 0xe4b983; 0xe7bbaa; 0xe882a9;
  0xe7b18d; 0xe6958f; 0xe6b682; 0xe78699; 0xe79a86; 0xe4bea6; 0xe682ac; 0xe68e98;
  0xe4baab; 0xe7baa0; 0xe98692; 0xe78b82; 0xe99481; 0xe6b780; 0xe681a8; 0xe789b2;
  0xe99cb8; 0xe788ac; 0xe8b58f; 0xe98086; 0xe78ea9; 0xe999b5; 0xe7a59d; 0xe7a792;
  0xe6b599; 0xe8b28c; 0xe5bdb9; 0xe5bdbc; 0xe68289; 0xe9b8ad; 0xe8b68b; 0xe587a4;
  0xe699a8; 0xe7959c; 0xe8be88; 0xe7a7a9; 0xe58db5; 0xe7bdb2; 0xe6a2af; 0xe7828e;
  0xe6bba9; 0xe6a38b; 0xe9a9b1; 0xe7ad9b; 0xe5b3a1; 0xe58692; 0xe595a5; 0xe5afbf;
  0xe8af91; 0xe6b5b8; 0xe6b389; 0xe5b8bd; 0xe8bf9f; 0xe7a185; 0xe79686; 0xe8b4b7;
  0xe6bc8f; 0xe7a8bf; 0xe586a0; 0xe5aba9; 0xe88381; 0xe88aaf; 0xe789a2; 0xe58f9b;
  0xe89a80; 0xe5a5a5; 0xe9b8a3; 0xe5b2ad; 0xe7be8a; 0xe587ad; 0xe4b8b2; 0xe5a198;
  0xe7bb98; 0xe985b5; 0xe89e8d; 0xe79b86; 0xe994a1; 0xe5ba99; 0xe7adb9; 0xe586bb;
  0xe8be85; 0xe69184; 0xe8a2ad; 0xe7ad8b; 0xe68b92; 0xe5839a; 0xe697b1; 0xe992be;
  0xe9b89f; 0xe6bc86; 0xe6b288; 0xe79c89; 0xe7968f; 0xe6b7bb; 0xe6a392; 0xe7a997;
  0xe7a19d; 0xe99fa9; 0xe980bc; 0xe689ad; 0xe4bea8; 0xe58789; 0xe68cba; 0xe7a297;
  0xe6a0bd; 0xe78292; 0xe69daf; 0xe682a3; 0xe9a68f; 0xe58a9d; 0xe8b1aa; 0xe8bebd;
  0xe58b83; 0xe9b8bf; 0xe697a6; 0xe5908f; 0xe68b9c; 0xe78b97; 0xe59f8b; 0xe8be8a;
  0xe68ea9; 0xe9a5ae; 0xe690ac; 0xe9aa82; 0xe8be9e; 0xe58bbe; 0xe689a3; 0xe4bcb0;
  0xe8928b; 0xe7bb92; 0xe99bbe; 0xe4b888; 0xe69cb5; 0xe5a786; 0xe68b9f; 0xe5ae87;
  0xe8be91; 0xe99995; 0xe99b95; 0xe581bf; 0xe89384; 0xe5b487; 0xe589aa; 0xe580a1;
  0xe58e85; 0xe592ac; 0xe9a9b6; 0xe896af; 0xe588b7; 0xe696a5; 0xe795aa; 0xe8b58b;
  0xe5a589; 0xe4bd9b; 0xe6b587; 0xe6bcab; 0xe69bbc; 0xe68987; 0xe99299; 0xe6a183;
  0xe689b6; 0xe4bb94; 0xe8bf94; 0xe4bf97; 0xe4ba8f; 0xe88594; 0xe99e8b; 0xe6a3b1;
  0xe8a686; 0xe6a186; 0xe68284; 0xe58f94; 0xe6929e; 0xe9aa97; 0xe58b98; 0xe697ba;
  0xe6b2b8; 0xe5ada4; 0xe59090; 0xe5ad9f; 0xe6b8a0; 0xe5b188; 0xe796be; 0xe5a699;
  0xe6839c; 0xe4bbb0; 0xe78ba0; 0xe88380; 0xe8b090; 0xe68a9b; 0xe99c89; 0xe6a191;
  0xe5b297; 0xe5989b; 0xe8a1b0; 0xe79b97; 0xe6b897; 0xe8848f; 0xe8b596; 0xe6b68c;
  0xe7949c; 0xe69bb9; 0xe99885; 0xe8828c; 0xe593a9; 0xe58e89; 0xe78383; 0xe7baac;
  0xe6af85; 0xe698a8; 0xe4bcaa; 0xe79787; 0xe785ae; 0xe58fb9; 0xe99289; 0xe690ad;
  0xe88c8e; 0xe7acbc; 0xe985b7; 0xe581b7; 0xe5bc93; 0xe994a5; 0xe68192; 0xe69db0;
  0xe59d91; 0xe9bcbb; 0xe7bfbc; 0xe7bab6; 0xe58f99; 0xe78bb1; 0xe980ae; 0xe7bd90;
  0xe7bb9c; 0xe6a39a; 0xe68a91; 0xe886a8; 0xe894ac; 0xe5afba; 0xe9aaa4; 0xe7a986;
  0xe586b6; 0xe69eaf; 0xe5868c; 0xe5b0b8; 0xe587b8; 0xe7bb85; 0xe59daf; 0xe789ba;
  0xe784b0; 0xe8bdb0; 0xe6aca3; 0xe6998b; 0xe798a6; 0xe5bea1; 0xe994ad; 0xe994a6;
  0xe4b8a7; 0xe697ac; 0xe994bb; 0xe59e84; 0xe6909c; 0xe68991; 0xe98280; 0xe4baad;
  0xe985af; 0xe8bf88; 0xe88892; 0xe88486; 0xe985b6; 0xe997b2; 0xe5bfa7; 0xe9859a;
  0xe9a1bd; 0xe7bebd; 0xe6b6a8; 0xe58db8; 0xe4bb97; 0xe999aa; 0xe8be9f; 0xe683a9;
  0xe69dad; 0xe5a79a; 0xe8829a; 0xe68d89; 0xe9a398; 0xe6bc82; 0xe69886; 0xe6acba;
  0xe590be; 0xe9838e; 0xe783b7; 0xe6b181; 0xe591b5; 0xe9a5b0; 0xe890a7; 0xe99b85;
  0xe982ae; 0xe8bf81; 0xe78795; 0xe69292; 0xe5a7bb; 0xe8b5b4; 0xe5aeb4; 0xe783a6;
  0xe580ba; 0xe5b890; 0xe69691; 0xe99383; 0xe697a8; 0xe98687; 0xe891a3; 0xe9a5bc;
  0xe99b8f; 0xe5a7bf; 0xe68b8c; 0xe58285; 0xe885b9; 0xe5a6a5; 0xe68f89; 0xe8b4a4;
  0xe68b86; 0xe6adaa; 0xe891a1; 0xe883ba; 0xe4b8a2; 0xe6b5a9; 0xe5bebd; 0xe69882;
  0xe59eab; 0xe68ca1; 0xe8a788; 0xe8b4aa; 0xe685b0; 0xe7bcb4; 0xe6b1aa; 0xe6858c;
  0xe586af; 0xe8afba; 0xe5a79c; 0xe8b08a; 0xe587b6; 0xe58aa3; 0xe8afac; 0xe88080;
  0xe6988f; 0xe8baba; 0xe79b88; 0xe9aa91; 0xe4b994; 0xe6baaa; 0xe4b89b; 0xe58da2;
  0xe68ab9; 0xe997b7; 0xe592a8; 0xe588ae; 0xe9a9be; 0xe7bc86; 0xe6829f; 0xe69198;
  0xe99392; 0xe68eb7; 0xe9a287; 0xe5b9bb; 0xe69f84; 0xe683a0; 0xe683a8; 0xe4bdb3;
  0xe4bb87; 0xe8858a; 0xe7aa9d; 0xe6b6a4; 0xe58991; 0xe79ea7; 0xe5a0a1; 0xe6b3bc;
  0xe891b1; 0xe7bda9; 0xe99c8d; 0xe68d9e; 0xe8838e; 0xe88b8d; 0xe6bba8; 0xe4bfa9;
  0xe68d85; 0xe6b998; 0xe7a08d; 0xe99c9e; 0xe982b5; 0xe89084; 0xe796af; 0xe6b7ae;
  0xe98182; 0xe7868a; 0xe7b2aa; 0xe78398; 0xe5aebf; 0xe6a1a3; 0xe68888; 0xe9a9b3;
  0xe5ab82; 0xe8a395; 0xe5be99; 0xe7aead; 0xe68d90; 0xe882a0; 0xe69291; 0xe69992;
  0xe8bea8; 0xe6aebf; 0xe88eb2; 0xe6918a; 0xe69085; 0xe985b1; 0xe5b18f; 0xe796ab;
  0xe59380; 0xe894a1; 0xe5a0b5; 0xe6b2ab; 0xe79ab1; 0xe79585; 0xe58fa0; 0xe99881;
  0xe88eb1; 0xe695b2; 0xe8be96; 0xe992a9; 0xe79795; 0xe59d9d; 0xe5b7b7; 0xe9a5bf;
  0xe7a5b8; 0xe4b898; 0xe78e84; 0xe6ba9c; 0xe69bb0; 0xe980bb; 0xe5bdad; 0xe5b09d;
  0xe58dbf; 0xe5a6a8; 0xe88987; 0xe5909e; 0xe99fa6; 0xe680a8; 0xe79fae; 0xe6ad87].

(** bip39_dictionary.hpp:2132-4181 *)
Definition dict_chinese_traditional : list Z := [
  0xe79a84; 0xe4b880; 0xe698af; 0xe59ca8; 0xe4b88d; 0xe4ba86; 0xe69c89; 0xe5928c;
  0xe4baba; 0xe98099; 0xe4b8ad; 0xe5a4a7; 0xe782ba; 0xe4b88a; 0xe5808b; 0xe59c8b;
  0xe68891; 0xe4bba5; 0xe8a681; 0xe4bb96; 0xe69982; 0xe4be86; 0xe794a8; 0xe58091;
  0xe7949f; 0xe588b0; 0xe4bd9c; 0xe59cb0; 0xe696bc; 0xe587ba; 0xe5b0b1; 0xe58886;
  0xe5b08d; 0xe68890; 0xe69c83; 0xe58faf; 0xe4b8bb; 0xe799bc; 0xe5b9b4; 0xe58b95;
  0xe5908c; 0xe5b7a5; 0xe4b99f; 0xe883bd; 0xe4b88b; 0xe9818e; 0xe5ad90; 0xe8aaaa;
  0xe794a2; 0xe7a8ae; 0xe99da2; 0xe8808c; 0xe696b9; 0xe5be8c; 0xe5a49a; 0xe5ae9a;
  0xe8a18c; 0xe5adb8; 0xe6b395; 0xe68980; 0xe6b091; 0xe5be97; 0xe7b693; 0xe58d81;
  0xe4b889; 0xe4b98b; 0xe980b2; 0xe89197; 0xe7ad89; 0xe983a8; 0xe5baa6; 0xe5aeb6;
  0xe99bbb; 0xe58a9b; 0xe8a3a1; 0xe5a682; 0xe6b0b4; 0xe58c96; 0xe9ab98; 0xe887aa;
  0xe4ba8c; 0xe79086; 0xe8b5b7; 0xe5b08f; 0xe789a9; 0xe78fbe; 0xe5afa6; 0xe58aa0;
  0xe9878f; 0xe983bd; 0xe585a9; 0xe9ab94; 0xe588b6; 0xe6a99f; 0xe795b6; 0xe4bdbf;
  0xe9bb9e; 0xe5be9e; 0xe6a5ad; 0xe69cac; 0xe58ebb; 0xe68a8a; 0xe680a7; 0xe5a5bd;
  0xe68789; 0xe9968b; 0xe5ae83; 0xe59088; 0xe98284; 0xe59ba0; 0xe794b1; 0xe585b6;
  0xe4ba9b; 0xe784b6; 0xe5898d; 0xe5a496; 0xe5a4a9; 0xe694bf; 0xe59b9b; 0xe697a5;
  0xe982a3; 0xe7a4be; 0xe7bea9; 0xe4ba8b; 0xe5b9b3; 0xe5bda2; 0xe79bb8; 0xe585a8;
  0xe8a1a8; 0xe99693; 0xe6a8a3; 0xe88887; 0xe9979c; 0xe59084; 0xe9878d; 0xe696b0;
  0xe7b79a; 0xe585a7; 0xe695b8; 0xe6ada3; 0xe5bf83; 0xe58f8d; 0xe4bda0; 0xe6988e;
  0xe79c8b; 0xe58e9f; 0xe58f88; 0xe9babc; 0xe588a9; 0xe6af94; 0xe68896; 0xe4bd86;
  0xe8b3aa; 0xe6b0a3; 0xe7acac; 0xe59091; 0xe98193; 0xe591bd; 0xe6ada4; 0xe8ae8a;
  0xe6a29d; 0xe58faa; 0xe6b292; 0xe7b590; 0xe8a7a3; 0xe5958f; 0xe6848f; 0xe5bbba;
  0xe69c88; 0xe585ac; 0xe784a1; 0xe7b3bb; 0xe8bb8d; 0xe5be88; 0xe68385; 0xe88085;
  0xe69c80; 0xe7ab8b; 0xe4bba3; 0xe683b3; 0xe5b7b2; 0xe9809a; 0xe4b8a6; 0xe68f90;
  0xe79bb4; 0xe9a18c; 0xe9bba8; 0xe7a88b; 0xe5b195; 0xe4ba94; 0xe69e9c; 0xe69699;
  0xe8b1a1; 0xe593a1; 0xe99da9; 0xe4bd8d; 0xe585a5; 0xe5b8b8; 0xe69687; 0xe7b8bd;
  0xe6aca1; 0xe59381; 0xe5bc8f; 0xe6b4bb; 0xe8a8ad; 0xe58f8a; 0xe7aea1; 0xe789b9;
  0xe4bbb6; 0xe995b7; 0xe6b182; 0xe88081; 0xe9a0ad; 0xe59fba; 0xe8b387; 0xe9828a;
  0xe6b581; 0xe8b7af; 0xe7b49a; 0xe5b091; 0xe59c96; 0xe5b1b1; 0xe7b5b1; 0xe68ea5;
  0xe79fa5; 0xe8bc83; 0xe5b087; 0xe7b584; 0xe8a68b; 0xe8a888; 0xe588a5; 0xe5a5b9;
  0xe6898b; 0xe8a792; 0xe69c9f; 0xe6a0b9; 0xe8ab96; 0xe9818b; 0xe8beb2; 0xe68c87;
  0xe5b9be; 0xe4b99d; 0xe58d80; 0xe5bcb7; 0xe694be; 0xe6b1ba; 0xe8a5bf; 0xe8a2ab;
  0xe5b9b9; 0xe5819a; 0xe5bf85; 0xe688b0; 0xe58588; 0xe59b9e; 0xe58987; 0xe4bbbb;
  0xe58f96; 0xe6939a; 0xe89995; 0xe99a8a; 0xe58d97; 0xe7b5a6; 0xe889b2; 0xe58589;
  0xe99680; 0xe58db3; 0xe4bf9d; 0xe6b2bb; 0xe58c97; 0xe980a0; 0xe799be; 0xe8a68f;
  0xe786b1; 0xe9a098; 0xe4b883; 0xe6b5b7; 0xe58fa3; 0xe69db1; 0xe5b08e; 0xe599a8;
  0xe5a393; 0xe5bf97; 0xe4b896; 0xe98791; 0xe5a29e; 0xe788ad; 0xe6bf9f; 0xe99a8e;
  0xe6b2b9; 0xe6809d; 0xe8a193; 0xe6a5b5; 0xe4baa4; 0xe58f97; 0xe881af; 0xe4bb80;
  0xe8aa8d; 0xe585ad; 0xe585b1; 0xe6ac8a; 0xe694b6; 0xe8ad89; 0xe694b9; 0xe6b885;
  0xe7be8e; 0xe5868d; 0xe68ea1; 0xe8bd89; 0xe69bb4; 0xe596ae; 0xe9a2a8; 0xe58887;
  0xe68993; 0xe799bd; 0xe69599; 0xe9809f; 0xe88ab1; 0xe5b8b6; 0xe5ae89; 0xe5a0b4;
  0xe8baab; 0xe8bb8a; 0xe4be8b; 0xe79c9f; 0xe58b99; 0xe585b7; 0xe890ac; 0xe6af8f;
  0xe79bae; 0xe887b3; 0xe98194; 0xe8b5b0; 0xe7a98d; 0xe7a4ba; 0xe8adb0; 0xe881b2;
  0xe5a0b1; 0xe9aca5; 0xe5ae8c; 0xe9a19e; 0xe585ab; 0xe99ba2; 0xe88faf; 0xe5908d;
  0xe7a2ba; 0xe6898d; 0xe7a791; 0xe5bcb5; 0xe4bfa1; 0xe9a6ac; 0xe7af80; 0xe8a9b1;
  0xe7b1b3; 0xe695b4; 0xe7a9ba; 0xe58583; 0xe6b381; 0xe4bb8a; 0xe99b86; 0xe6baab;
  0xe582b3; 0xe59c9f; 0xe8a8b1; 0xe6ada5; 0xe7bea4; 0xe5bba3; 0xe79fb3; 0xe8a898;
  0xe99c80; 0xe6aeb5; 0xe7a094; 0xe7958c; 0xe68b89; 0xe69e97; 0xe5be8b; 0xe58fab;
  0xe4b894; 0xe7a9b6; 0xe8a780; 0xe8b68a; 0xe7b994; 0xe8a39d; 0xe5bdb1; 0xe7ae97;
  0xe4bd8e; 0xe68c81; 0xe99fb3; 0xe79cbe; 0xe69bb8; 0xe5b883; 0xe5a48d; 0xe5aeb9;
  0xe58592; 0xe9a088; 0xe99a9b; 0xe59586; 0xe99d9e; 0xe9a997; 0xe980a3; 0xe696b7;
  0xe6b7b1; 0xe99ba3; 0xe8bf91; 0xe7a4a6; 0xe58d83; 0xe980b1; 0xe5a794; 0xe7b4a0;
  0xe68a80; 0xe58299; 0xe58d8a; 0xe8bea6; 0xe99d92; 0xe79c81; 0xe58897; 0xe7bf92;
  0xe99fbf; 0xe7b484; 0xe694af; 0xe888ac; 0xe58fb2; 0xe6849f; 0xe58b9e; 0xe4bebf;
  0xe59c98; 0xe5be80; 0xe985b8; 0xe6adb7; 0xe5b882; 0xe5858b; 0xe4bd95; 0xe999a4;
  0xe6b688; 0xe6a78b; 0xe5ba9c; 0xe7a8b1; 0xe5a4aa; 0xe6ba96; 0xe7b2be; 0xe580bc;
  0xe8999f; 0xe78e87; 0xe6978f; 0xe7b6ad; 0xe58a83; 0xe981b8; 0xe6a899; 0xe5afab;
  0xe5ad98; 0xe58099; 0xe6af9b; 0xe8a6aa; 0xe5bfab; 0xe69588; 0xe696af; 0xe999a2;
  0xe69fa5; 0xe6b19f; 0xe59e8b; 0xe79cbc; 0xe78e8b; 0xe68c89; 0xe6a0bc; 0xe9a48a;
  0xe69893; 0xe7bdae; 0xe6b4be; 0xe5b1a4; 0xe78987; 0xe5a78b; 0xe58dbb; 0xe5b088;
  0xe78b80; 0xe882b2; 0xe5bba0; 0xe4baac; 0xe8ad98; 0xe981a9; 0xe5b1ac; 0xe59c93;
  0xe58c85; 0xe781ab; 0xe4bd8f; 0xe8aabf; 0xe6bbbf; 0xe7b8a3; 0xe5b180; 0xe785a7;
  0xe58f83; 0xe7b485; 0xe7b4b0; 0xe5bc95; 0xe881bd; 0xe8a9b2; 0xe990b5; 0xe583b9;
  0xe59ab4; 0xe9a696; 0xe5ba95; 0xe6b6b2; 0xe5ae98; 0xe5beb7; 0xe99aa8; 0xe79785;
  0xe89887; 0xe5a4b1; 0xe788be; 0xe6adbb; 0xe8ac9b; 0xe9858d; 0xe5a5b3; 0xe9bb83;
  0xe68ea8; 0xe9a1af; 0xe8ab87; 0xe7bdaa; 0xe7a59e; 0xe8979d; 0xe591a2; 0xe5b8ad;
  0xe590ab; 0xe4bc81; 0xe69c9b; 0xe5af86; 0xe689b9; 0xe7879f; 0xe9a085; 0xe998b2;
  0xe88889; 0xe79083; 0xe88bb1; 0xe6b0a7; 0xe58ba2; 0xe5918a; 0xe69d8e; 0xe58fb0;
  0xe890bd; 0xe69ca8; 0xe5b9ab; 0xe8bcaa; 0xe7a0b4; 0xe4ba9e; 0xe5b8ab; 0xe59c8d;
  0xe6b3a8; 0xe981a0; 0xe5ad97; 0xe69d90; 0xe68e92; 0xe4be9b; 0xe6b2b3; 0xe6858b;
  0xe5b081; 0xe58fa6; 0xe696bd; 0xe6b89b; 0xe6a8b9; 0xe6bab6; 0xe6808e; 0xe6ada2;
  0xe6a188; 0xe8a880; 0xe5a3ab; 0xe59d87; 0xe6ada6; 0xe59bba; 0xe89189; 0xe9ad9a;
  0xe6b3a2; 0xe8a696; 0xe58385; 0xe8b2bb; 0xe7b78a; 0xe6849b; 0xe5b7a6; 0xe7aba0;
  0xe697a9; 0xe69c9d; 0xe5aeb3; 0xe7ba8c; 0xe8bc95; 0xe69c8d; 0xe8a9a6; 0xe9a39f;
  0xe58585; 0xe585b5; 0xe6ba90; 0xe588a4; 0xe8adb7; 0xe58fb8; 0xe8b6b3; 0xe69f90;
  0xe7b7b4; 0xe5b7ae; 0xe887b4; 0xe69dbf; 0xe794b0; 0xe9998d; 0xe9bb91; 0xe78aaf;
  0xe8b2a0; 0xe6938a; 0xe88c83; 0xe7b9bc; 0xe88888; 0xe4bcbc; 0xe9a498; 0xe5a085;
  0xe69bb2; 0xe8bcb8; 0xe4bfae; 0xe69585; 0xe59f8e; 0xe5a4ab; 0xe5a4a0; 0xe98081;
  0xe7ad86; 0xe888b9; 0xe4bd94; 0xe58fb3; 0xe8b2a1; 0xe59083; 0xe5af8c; 0xe698a5;
  0xe881b7; 0xe8a6ba; 0xe6bca2; 0xe795ab; 0xe58a9f; 0xe5b7b4; 0xe8b79f; 0xe99b96;
  0xe99b9c; 0xe9a39b; 0xe6aaa2; 0xe590b8; 0xe58aa9; 0xe69887; 0xe999bd; 0xe4ba92;
  0xe5889d; 0xe589b5; 0xe68a97; 0xe88083; 0xe68a95; 0xe5a39e; 0xe7ad96; 0xe58fa4;
  0xe5be91; 0xe68f9b; 0xe69caa; 0xe8b791; 0xe79599; 0xe98bbc; 0xe69bbe; 0xe7abaf;
  0xe8b2ac; 0xe7ab99; 0xe7b0a1; 0xe8bfb0; 0xe98ca2; 0xe589af; 0xe79ba1; 0xe5b89d;
  0xe5b084; 0xe88d89; 0xe8a19d; 0xe689bf; 0xe78da8; 0xe4bba4; 0xe99990; 0xe998bf;
  0xe5aea3; 0xe792b0; 0xe99b99; 0xe8ab8b; 0xe8b685; 0xe5beae; 0xe8ae93; 0xe68ea7;
  0xe5b79e; 0xe889af; 0xe8bbb8; 0xe689be; 0xe590a6; 0xe7b480; 0xe79b8a; 0xe4be9d;
  0xe584aa; 0xe9a082; 0xe7a48e; 0xe8bc89; 0xe58092; 0xe688bf; 0xe7aa81; 0xe59d90;
  0xe7b289; 0xe695b5; 0xe795a5; 0xe5aea2; 0xe8a281; 0xe586b7; 0xe58b9d; 0xe7b595;
  0xe69e90; 0xe5a18a; 0xe58a91; 0xe6b8ac; 0xe7b5b2; 0xe58d94; 0xe8a8b4; 0xe5bfb5;
  0xe999b3; 0xe4bb8d; 0xe7be85; 0xe9b9bd; 0xe58f8b; 0xe6b48b; 0xe98caf; 0xe88ba6;
  0xe5a49c; 0xe58891; 0xe7a7bb; 0xe9a0bb; 0xe98090; 0xe99da0; 0xe6b7b7; 0xe6af8d;
  0xe79fad; 0xe79aae; 0xe7b582; 0xe8819a; 0xe6b1bd; 0xe69d91; 0xe99bb2; 0xe593aa;
  0xe697a2; 0xe8b79d; 0xe8a19b; 0xe5819c; 0xe78388; 0xe5a4ae; 0xe5af9f; 0xe78792;
  0xe8bf85; 0xe5a283; 0xe88ba5; 0xe58db0; 0xe6b4b2; 0xe588bb; 0xe68bac; 0xe6bf80;
  0xe5ad94; 0xe6909e; 0xe7949a; 0xe5aea4; 0xe5be85; 0xe6a0b8; 0xe6a0a1; 0xe695a3;
  0xe4beb5; 0xe590a7; 0xe794b2; 0xe9818a; 0xe4b985; 0xe88f9c; 0xe591b3; 0xe8888a;
  0xe6a8a1; 0xe6b996; 0xe8b2a8; 0xe6908d; 0xe9a090; 0xe998bb; 0xe6afab; 0xe699ae;
  0xe7a9a9; 0xe4b999; 0xe5aabd; 0xe6a48d; 0xe681af; 0xe693b4; 0xe98a80; 0xe8aa9e;
  0xe68fae; 0xe98592; 0xe5ae88; 0xe68bbf; 0xe5ba8f; 0xe7b499; 0xe986ab; 0xe7bcba;
  0xe99ba8; 0xe5978e; 0xe9879d; 0xe58a89; 0xe5958a; 0xe680a5; 0xe594b1; 0xe8aaa4;
  0xe8a893; 0xe9a198; 0xe5afa9; 0xe99984; 0xe78db2; 0xe88cb6; 0xe9aeae; 0xe7b3a7;
  0xe696a4; 0xe5ada9; 0xe884ab; 0xe7a1ab; 0xe882a5; 0xe59684; 0xe9be8d; 0xe6bc94;
  0xe788b6; 0xe6bcb8; 0xe8a180; 0xe6ada1; 0xe6a2b0; 0xe68e8c; 0xe6ad8c; 0xe6b299;
  0xe5899b; 0xe694bb; 0xe8ac82; 0xe79bbe; 0xe8a88e; 0xe6999a; 0xe7b292; 0xe4ba82;
  0xe78783; 0xe79f9b; 0xe4b98e; 0xe6aeba; 0xe897a5; 0xe5afa7; 0xe9adaf; 0xe8b2b4;
  0xe99098; 0xe785a4; 0xe8ae80; 0xe78fad; 0xe4bcaf; 0xe9a699; 0xe4bb8b; 0xe8bfab;
  0xe58fa5; 0xe8b190; 0xe59fb9; 0xe68fa1; 0xe898ad; 0xe69394; 0xe5bca6; 0xe89b8b;
  0xe6b289; 0xe58187; 0xe7a9bf; 0xe59fb7; 0xe7ad94; 0xe6a882; 0xe8aab0; 0xe9a086;
  0xe78599; 0xe7b8ae; 0xe5beb5; 0xe88789; 0xe5969c; 0xe69dbe; 0xe885b3; 0xe59bb0;
  0xe795b0; 0xe5858d; 0xe8838c; 0xe6989f; 0xe7a68f; 0xe8b2b7; 0xe69f93; 0xe4ba95;
  0xe6a682; 0xe685a2; 0xe68095; 0xe7a381; 0xe5808d; 0xe7a596; 0xe79a87; 0xe4bf83;
  0xe99d9c; 0xe8a39c; 0xe8a995; 0xe7bfbb; 0xe88289; 0xe8b890; 0xe5b0bc; 0xe8a1a3;
  0xe5afac; 0xe68f9a; 0xe6a389; 0xe5b88c; 0xe582b7; 0xe6938d; 0xe59e82; 0xe7a78b;
  0xe5ae9c; 0xe6b0ab; 0xe5a597; 0xe79da3; 0xe68caf; 0xe69eb6; 0xe4baae; 0xe69cab;
  0xe686b2; 0xe685b6; 0xe7b7a8; 0xe7899b; 0xe8a7b8; 0xe698a0; 0xe99bb7; 0xe98ab7;
  0xe8a9a9; 0xe5baa7; 0xe5b185; 0xe68a93; 0xe8a382; 0xe8839e; 0xe591bc; 0xe5a898;
  0xe699af; 0xe5a881; 0xe7b6a0; 0xe699b6; 0xe58e9a; 0xe79b9f; 0xe8a1a1; 0xe99b9e;
  0xe5adab; 0xe5bbb6; 0xe58db1; 0xe886a0; 0xe5b18b; 0xe98489; 0xe887a8; 0xe999b8;
  0xe9a1a7; 0xe68e89; 0xe59180; 0xe78788; 0xe6adb2; 0xe68eaa; 0xe69d9f; 0xe88090;
  0xe58a87; 0xe78e89; 0xe8b699; 0xe8b7b3; 0xe593a5; 0xe5ada3; 0xe8aab2; 0xe587b1;
  0xe883a1; 0xe9a18d; 0xe6acbe; 0xe7b4b9; 0xe58db7; 0xe9bd8a; 0xe58189; 0xe892b8;
  0xe6ae96; 0xe6b0b8; 0xe5ae97; 0xe88b97; 0xe5b79d; 0xe78890; 0xe5b2a9; 0xe5bcb1;
  0xe99bb6; 0xe6a58a; 0xe5a58f; 0xe6b2bf; 0xe99cb2; 0xe6a1bf; 0xe68ea2; 0xe6bb91;
  0xe98eae; 0xe9a3af; 0xe6bf83; 0xe888aa; 0xe687b7; 0xe8b695; 0xe5baab; 0xe5a5aa;
  0xe4bc8a; 0xe99d88; 0xe7a885; 0xe98094; 0xe6bb85; 0xe8b3bd; 0xe6adb8; 0xe58fac;
  0xe9bc93; 0xe692ad; 0xe79ba4; 0xe8a381; 0xe99aaa; 0xe5bab7; 0xe594af; 0xe98c84;
  0xe88f8c; 0xe7b494; 0xe5809f; 0xe7b396; 0xe8938b; 0xe6a9ab; 0xe7aca6; 0xe7a781;
  0xe58aaa; 0xe5a082; 0xe59f9f; 0xe6a78d; 0xe6bda4; 0xe5b985; 0xe59388; 0xe7ab9f;
  0xe7869f; 0xe89fb2; 0xe6bea4; 0xe885a6; 0xe5a3a4; 0xe7a2b3; 0xe6ad90; 0xe9818d;
  0xe581b4; 0xe5afa8; 0xe695a2; 0xe5beb9; 0xe685ae; 0xe6969c; 0xe89684; 0xe5baad;
  0xe7b48d; 0xe5bd88; 0xe9a3bc; 0xe4bcb8; 0xe68a98; 0xe9baa5; 0xe6bf95; 0xe69a97;
  0xe88db7; 0xe793a6; 0xe5a19e; 0xe5ba8a; 0xe7af89; 0xe683a1; 0xe688b6; 0xe8a8aa;
  0xe5a194; 0xe5a587; 0xe9808f; 0xe6a281; 0xe58880; 0xe6978b; 0xe8b7a1; 0xe58da1;
  0xe6b0af; 0xe98187; 0xe4bbbd; 0xe6af92; 0xe6b3a5; 0xe98080; 0xe6b497; 0xe693ba;
  0xe781b0; 0xe5bda9; 0xe8b3a3; 0xe88097; 0xe5a48f; 0xe69387; 0xe5bf99; 0xe98a85;
  0xe78dbb; 0xe7a1ac; 0xe4ba88; 0xe7b981; 0xe59c88; 0xe99baa; 0xe587bd; 0xe4baa6;
  0xe68abd; 0xe7af87; 0xe999a3; 0xe999b0; 0xe4b881; 0xe5b0ba; 0xe8bfbd; 0xe5a086;
  0xe99b84; 0xe8bf8e; 0xe6b39b; 0xe788b8; 0xe6a893; 0xe981bf; 0xe8ac80; 0xe599b8;
  0xe9878e; 0xe8b1ac; 0xe69797; 0xe7b4af; 0xe5818f; 0xe585b8; 0xe9a4a8; 0xe7b4a2;
  0xe7a7a6; 0xe88482; 0xe6bdae; 0xe788ba; 0xe8b186; 0xe5bfbd; 0xe68998; 0xe9a99a;
  0xe5a191; 0xe981ba; 0xe68488; 0xe69cb1; 0xe69bbf; 0xe7ba96; 0xe7b297; 0xe582be;
  0xe5b09a; 0xe7979b; 0xe6a59a; 0xe8ac9d; 0xe5a5ae; 0xe8b3bc; 0xe7a3a8; 0xe5909b;
  0xe6b1a0; 0xe69781; 0xe7a28e; 0xe9aaa8; 0xe79ba3; 0xe68d95; 0xe5bc9f; 0xe69ab4;
  0xe589b2; 0xe8b2ab; 0xe6ae8a; 0xe9878b; 0xe8a99e; 0xe4baa1; 0xe5a381; 0xe9a093;
  0xe5afb6; 0xe58d88; 0xe5a1b5; 0xe8819e; 0xe68fad; 0xe782ae; 0xe6ae98; 0xe586ac;
  0xe6a98b; 0xe5a9a6; 0xe8ada6; 0xe7b69c; 0xe68b9b; 0xe590b3; 0xe4bb98; 0xe6b5ae;
  0xe981ad; 0xe5be90; 0xe682a8; 0xe69096; 0xe8b0b7; 0xe8b48a; 0xe7aeb1; 0xe99a94;
  0xe8a882; 0xe794b7; 0xe590b9; 0xe59c92; 0xe7b49b; 0xe59490; 0xe69597; 0xe5ae8b;
  0xe78ebb; 0xe5b7a8; 0xe88095; 0xe59da6; 0xe6a6ae; 0xe99689; 0xe781a3; 0xe98db5;
  0xe587a1; 0xe9a790; 0xe98d8b; 0xe69591; 0xe681a9; 0xe5899d; 0xe5879d; 0xe9b9bc;
  0xe9bd92; 0xe688aa; 0xe78589; 0xe9babb; 0xe7b4a1; 0xe7a681; 0xe5bba2; 0xe79b9b;
  0xe78988; 0xe7b7a9; 0xe6b7a8; 0xe79d9b; 0xe6988c; 0xe5a99a; 0xe6b689; 0xe7ad92;
  0xe598b4; 0xe68f92; 0xe5b2b8; 0xe69c97; 0xe88e8a; 0xe8a197; 0xe8978f; 0xe5a791;
  0xe8b2bf; 0xe88590; 0xe5a5b4; 0xe595a6; 0xe685a3; 0xe4b998; 0xe5a4a5; 0xe681a2;
  0xe58bbb; 0xe7b497; 0xe6898e; 0xe8beaf; 0xe880b3; 0xe5bdaa; 0xe887a3; 0xe58484;
  0xe79283; 0xe68ab5; 0xe88488; 0xe7a780; 0xe896a9; 0xe4bf84; 0xe7b6b2; 0xe8889e;
  0xe5ba97; 0xe599b4; 0xe7b8b1; 0xe5afb8; 0xe6b197; 0xe68e9b; 0xe6b4aa; 0xe8b380;
  0xe99683; 0xe69fac; 0xe78886; 0xe783af; 0xe6b4a5; 0xe7a8bb; 0xe78986; 0xe8bb9f;
  0xe58b87; 0xe5838f; 0xe6bbbe; 0xe58e98; 0xe89299; 0xe88ab3; 0xe882af; 0xe59da1;
  0xe69fb1; 0xe79baa; 0xe885bf; 0xe58480; 0xe69785; 0xe5b0be; 0xe8bb8b; 0xe586b0;
  0xe8b2a2; 0xe799bb; 0xe9bb8e; 0xe5898a; 0xe991bd; 0xe58b92; 0xe98083; 0xe99a9c;
  0xe6b0a8; 0xe983ad; 0xe5b3b0; 0xe5b9a3; 0xe6b8af; 0xe4bc8f; 0xe8bb8c; 0xe7959d;
  0xe795a2; 0xe693a6; 0xe88eab; 0xe588ba; 0xe6b5aa; 0xe7a798; 0xe68fb4; 0xe6a0aa;
  0xe581a5; 0xe594ae; 0xe882a1; 0xe5b3b6; 0xe79498; 0xe6b3a1; 0xe79da1; 0xe7aba5;
  0xe99184; 0xe6b9af; 0xe996a5; 0xe4bc91; 0xe58caf; 0xe8888d; 0xe789a7; 0xe7b99e;
  0xe782b8; 0xe593b2; 0xe7a3b7; 0xe7b8be; 0xe69c8b; 0xe6b7a1; 0xe5b096; 0xe5959f;
  0xe999b7; 0xe69fb4; 0xe59188; 0xe5be92; 0xe9a18f; 0xe6b79a; 0xe7a88d; 0xe5bf98;
  0xe6b3b5; 0xe8978d; 0xe68b96; 0xe6b49e; 0xe68e88; 0xe98fa1; 0xe8be9b; 0xe5a3af;
  0xe98b92; 0xe8b2a7; 0xe8999b; 0xe5bd8e; 0xe691a9; 0xe6b3b0; 0xe5b9bc; 0xe5bbb7;
  0xe5b08a; 0xe7aa97; 0xe7b6b1; 0xe5bc84; 0xe99ab8; 0xe79691; 0xe6b08f; 0xe5aeae;
  0xe5a790; 0xe99c87; 0xe7919e; 0xe680aa; 0xe5b0a4; 0xe790b4; 0xe5beaa; 0xe68f8f;
  0xe8869c; 0xe98195; 0xe5a4be; 0xe885b0; 0xe7b7a3; 0xe78fa0; 0xe7aaae; 0xe6a3ae;
  0xe69e9d; 0xe7abb9; 0xe6ba9d; 0xe582ac; 0xe7b9a9; 0xe686b6; 0xe982a6; 0xe589a9;
  0xe5b9b8; 0xe6bcbf; 0xe6ac84; 0xe69381; 0xe78999; 0xe8b2af; 0xe7a6ae; 0xe6bfbe;
  0xe98889; 0xe7b48b; 0xe7bdb7; 0xe68b8d; 0xe592b1; 0xe5968a; 0xe8a296; 0xe59f83;
  0xe58ba4; 0xe7bdb0; 0xe784a6; 0xe6bd9b; 0xe4bc8d; 0xe5a2a8; 0xe6acb2; 0xe7b8ab;
  0xe5a793; 0xe5888a; 0xe9a3bd; 0xe4bbbf; 0xe78d8e; 0xe98b81; 0xe9acbc; 0xe9ba97;
  0xe8b7a8; 0xe9bb98; 0xe68c96; 0xe98f88; 0xe68e83; 0xe5969d; 0xe8a28b; 0xe782ad;
  0xe6b1a1; 0xe5b995; 0xe8abb8; 0xe5bca7; 0xe58bb5; 0xe6a285; 0xe5a5b6; 0xe6bd94;
  0xe781bd; 0xe8889f; 0xe99191; 0xe88baf; 0xe8a89f; 0xe68ab1; 0xe6af80; 0xe68782;
  0xe5af92; 0xe699ba; 0xe59f94; 0xe5af84; 0xe5b186; 0xe8ba8d; 0xe6b8a1; 0xe68c91;
  0xe4b8b9; 0xe889b1; 0xe8b29d; 0xe7a2b0; 0xe68b94; 0xe788b9; 0xe688b4; 0xe7a2bc;
  0xe5a4a2; 0xe88abd; 0xe78694; 0xe8b5a4; 0xe6bc81; 0xe593ad; 0xe695ac; 0xe9a186;
  0xe5a594; 0xe9899b; 0xe4bbb2; 0xe8998e; 0xe7a880; 0xe5a6b9; 0xe4b98f; 0xe78f8d;
  0xe794b3; 0xe6a18c; 0xe981b5; 0xe58581; 0xe99a86; 0xe89eba; 0xe58089; 0xe9ad8f;
  0xe98ab3; 0xe69b89; 0xe6b0ae; 0xe585bc; 0xe99ab1; 0xe7a499; 0xe8b5ab; 0xe692a5;
  0xe5bfa0; 0xe88285; 0xe7bcb8; 0xe789bd; 0xe690b6; 0xe58d9a; 0xe5b7a7; 0xe6aebc;
  0xe58584; 0xe69d9c; 0xe8a88a; 0xe8aaa0; 0xe7a2a7; 0xe7a5a5; 0xe69faf; 0xe9a081;
  0xe5b7a1; 0xe79fa9; 0xe682b2; 0xe7818c; 0xe9bda1; 0xe580ab; 0xe7a5a8; 0xe5b08b;
  0xe6a182; 0xe98baa; 0xe88196; 0xe68190; 0xe681b0; 0xe984ad; 0xe8b6a3; 0xe68aac;
  0xe88d92; 0xe9a8b0; 0xe8b2bc; 0xe69f94; 0xe6bbb4; 0xe78c9b; 0xe9978a; 0xe8bc9b;
  0xe5a6bb; 0xe5a1ab; 0xe692a4; 0xe584b2; 0xe7b0bd; 0xe9aca7; 0xe693be; 0xe7b4ab;
  0xe7a082; 0xe9819e; 0xe688b2; 0xe5908a; 0xe999b6; 0xe4bc90; 0xe9a4b5; 0xe79982;
  0xe793b6; 0xe5a986; 0xe692ab; 0xe88782; 0xe691b8; 0xe5bf8d; 0xe89da6; 0xe8a09f;
  0xe984b0; 0xe883b8; 0xe99e8f; 0xe693a0; 0xe581b6; 0xe6a384; 0xe6a7bd; 0xe58b81;
  0xe4b9b3; 0xe984a7; 0xe59089; 0xe4bb81; 0xe7889b; 0xe7a39a; 0xe7a79f; 0xe7838f;
  0xe889a6; 0xe4bcb4; 0xe7939c; 0xe6b7ba; 0xe4b899; 0xe69aab; 0xe787a5; 0xe6a9a1;
  0xe69fb3; 0xe8bfb7; 0xe69a96; 0xe7898c; 0xe7a7a7; 0xe886bd; 0xe8a9b3; 0xe7b0a7;
  0xe8b88f; 0xe793b7; 0xe8ad9c; 0xe59186; 0xe8b393; 0xe7b38a; 0xe6b49b; 0xe8bc9d;
  0xe686a4; 0xe7abb6; 0xe99a99; 0xe68092; 0xe7b298; 0xe4b983; 0xe7b792; 0xe882a9;
  0xe7b18d; 0xe6958f; 0xe5a197; 0xe78699; 0xe79a86; 0xe581b5; 0xe687b8; 0xe68e98;
  0xe4baab; 0xe7b3be; 0xe98692; 0xe78b82; 0xe98e96; 0xe6b780; 0xe681a8; 0xe789b2;
  0xe99cb8; 0xe788ac; 0xe8b39e; 0xe98086; 0xe78ea9; 0xe999b5; 0xe7a59d; 0xe7a792;
  0xe6b599; 0xe8b28c; 0xe5bdb9; 0xe5bdbc; 0xe68289; 0xe9b4a8; 0xe8b6a8; 0xe9b3b3;
  0xe699a8; 0xe7959c; 0xe8bca9; 0xe7a7a9; 0xe58db5; 0xe7bdb2; 0xe6a2af; 0xe7828e;
  0xe78198; 0xe6a38b; 0xe9a985; 0xe7afa9; 0xe5b3bd; 0xe58692; 0xe595a5; 0xe5a3bd;
  0xe8adaf; 0xe6b5b8; 0xe6b389; 0xe5b8bd; 0xe981b2; 0xe79fbd; 0xe79686; 0xe8b2b8;
  0xe6bc8f; 0xe7a8bf; 0xe586a0; 0xe5aba9; 0xe88485; 0xe88aaf; 0xe789a2; 0xe58f9b;
  0xe89d95; 0xe5a5a7; 0xe9b3b4; 0xe5b6ba; 0xe7be8a; 0xe68691; 0xe4b8b2; 0xe5a198;
  0xe7b9aa; 0xe985b5; 0xe89e8d; 0xe79b86; 0xe98cab; 0xe5bb9f; 0xe7b18c; 0xe5878d;
  0xe8bc94; 0xe6949d; 0xe8a5b2; 0xe7ad8b; 0xe68b92; 0xe5839a; 0xe697b1; 0xe98980;
  0xe9b3a5; 0xe6bc86; 0xe6b288; 0xe79c89; 0xe7968f; 0xe6b7bb; 0xe6a392; 0xe7a997;
  0xe7a19d; 0xe99f93; 0xe980bc; 0xe689ad; 0xe58391; 0xe6b6bc; 0xe68cba; 0xe7a297;
  0xe6a0bd; 0xe78292; 0xe69daf; 0xe682a3; 0xe9a4be; 0xe58bb8; 0xe8b1aa; 0xe981bc;
  0xe58b83; 0xe9b4bb; 0xe697a6; 0xe5908f; 0xe68b9c; 0xe78b97; 0xe59f8b; 0xe8bca5;
  0xe68ea9; 0xe9a3b2; 0xe690ac; 0xe7bdb5; 0xe8bead; 0xe58bbe; 0xe689a3; 0xe4bcb0;
  0xe894a3; 0xe7b5a8; 0xe99ca7; 0xe4b888; 0xe69cb5; 0xe5a786; 0xe693ac; 0xe5ae87;
  0xe8bcaf; 0xe9999d; 0xe99b95; 0xe5849f; 0xe89384; 0xe5b487; 0xe589aa; 0xe580a1;
  0xe5bbb3; 0xe592ac; 0xe9a79b; 0xe896af; 0xe588b7; 0xe696a5; 0xe795aa; 0xe8b3a6;
  0xe5a589; 0xe4bd9b; 0xe6be86; 0xe6bcab; 0xe69bbc; 0xe68987; 0xe988a3; 0xe6a183;
  0xe689b6; 0xe4bb94; 0xe8bf94; 0xe4bf97; 0xe899a7; 0xe88594; 0xe99e8b; 0xe6a3b1;
  0xe8a686; 0xe6a186; 0xe68284; 0xe58f94; 0xe6929e; 0xe9a899; 0xe58b98; 0xe697ba;
  0xe6b2b8; 0xe5ada4; 0xe59090; 0xe5ad9f; 0xe6b8a0; 0xe5b188; 0xe796be; 0xe5a699;
  0xe6839c; 0xe4bbb0; 0xe78ba0; 0xe884b9; 0xe8aba7; 0xe68b8b; 0xe9bbb4; 0xe6a191;
  0xe5b497; 0xe5989b; 0xe8a1b0; 0xe79b9c; 0xe6bbb2; 0xe8879f; 0xe8b3b4; 0xe6b9a7;
  0xe7949c; 0xe69bb9; 0xe996b1; 0xe8828c; 0xe593a9; 0xe58eb2; 0xe783b4; 0xe7b7af;
  0xe6af85; 0xe698a8; 0xe581bd; 0xe79787; 0xe785ae; 0xe59886; 0xe98798; 0xe690ad;
  0xe88e96; 0xe7b1a0; 0xe985b7; 0xe581b7; 0xe5bc93; 0xe98c90; 0xe68186; 0xe58291;
  0xe59d91; 0xe9bcbb; 0xe7bfbc; 0xe7b6b8; 0xe69598; 0xe78d84; 0xe980ae; 0xe7bd90;
  0xe7b5a1; 0xe6a39a; 0xe68a91; 0xe886a8; 0xe894ac; 0xe5afba; 0xe9a99f; 0xe7a986;
  0xe586b6; 0xe69eaf; 0xe5868a; 0xe5b18d; 0xe587b8; 0xe7b4b3; 0xe59daf; 0xe78aa7;
  0xe784b0; 0xe8bd9f; 0xe6aca3; 0xe69989; 0xe798a6; 0xe7a6a6; 0xe98ca0; 0xe98ca6;
  0xe596aa; 0xe697ac; 0xe98d9b; 0xe5a39f; 0xe6909c; 0xe692b2; 0xe98280; 0xe4baad;
  0xe985af; 0xe98281; 0xe88892; 0xe88486; 0xe985b6; 0xe99692; 0xe68682; 0xe9859a;
  0xe9a091; 0xe7bebd; 0xe6bcb2; 0xe58db8; 0xe4bb97; 0xe999aa; 0xe997a2; 0xe687b2;
  0xe69dad; 0xe5a79a; 0xe8829a; 0xe68d89; 0xe9a384; 0xe6bc82; 0xe69886; 0xe6acba;
  0xe590be; 0xe9838e; 0xe783b7; 0xe6b181; 0xe591b5; 0xe9a3be; 0xe895ad; 0xe99b85;
  0xe983b5; 0xe981b7; 0xe78795; 0xe69292; 0xe5a7bb; 0xe8b5b4; 0xe5aeb4; 0xe785a9;
  0xe582b5; 0xe5b8b3; 0xe69691; 0xe988b4; 0xe697a8; 0xe98687; 0xe891a3; 0xe9a485;
  0xe99b9b; 0xe5a7bf; 0xe68b8c; 0xe58285; 0xe885b9; 0xe5a6a5; 0xe68f89; 0xe8b3a2;
  0xe68b86; 0xe6adaa; 0xe891a1; 0xe883ba; 0xe4b89f; 0xe6b5a9; 0xe5bebd; 0xe69882;
  0xe5a28a; 0xe6938b; 0xe8a6bd; 0xe8b2aa; 0xe685b0; 0xe7b9b3; 0xe6b1aa; 0xe6858c;
  0xe9a6ae; 0xe8abbe; 0xe5a79c; 0xe8aabc; 0xe58587; 0xe58aa3; 0xe8aaa3; 0xe88080;
  0xe6988f; 0xe8baba; 0xe79b88; 0xe9a88e; 0xe596ac; 0xe6baaa; 0xe58fa2; 0xe79ba7;
  0xe68ab9; 0xe682b6; 0xe8abae; 0xe588ae; 0xe9a795; 0xe7ba9c; 0xe6829f; 0xe69198;
  0xe989ba; 0xe693b2; 0xe9a097; 0xe5b9bb; 0xe69f84; 0xe683a0; 0xe68598; 0xe4bdb3;
  0xe4bb87; 0xe88798; 0xe7aaa9; 0xe6bb8c; 0xe58a8d; 0xe79ea7; 0xe5a0a1; 0xe6bd91;
  0xe894a5; 0xe7bda9; 0xe99c8d; 0xe69288; 0xe8838e; 0xe892bc; 0xe6bfb1; 0xe58086;
  0xe68d85; 0xe6b998; 0xe7a08d; 0xe99c9e; 0xe982b5; 0xe89084; 0xe7988b; 0xe6b7ae;
  0xe98182; 0xe7868a; 0xe7b39e; 0xe78398; 0xe5aebf; 0xe6aa94; 0xe68888; 0xe9a781;
  0xe5ab82; 0xe8a395; 0xe5be99; 0xe7aead; 0xe68d90; 0xe885b8; 0xe69290; 0xe69bac;
  0xe8bea8; 0xe6aebf; 0xe893ae; 0xe694a4; 0xe694aa; 0xe986ac; 0xe5b18f; 0xe796ab;
  0xe59380; 0xe894a1; 0xe5a0b5; 0xe6b2ab; 0xe79aba; 0xe69aa2; 0xe7968a; 0xe996a3;
  0xe8908a; 0xe695b2; 0xe8bd84; 0xe989a4; 0xe79795; 0xe5a3a9; 0xe5b7b7; 0xe9a493;
  0xe7a68d; 0xe4b898; 0xe78e84; 0xe6ba9c; 0xe69bb0; 0xe9828f; 0xe5bdad; 0xe59897;
  0xe58dbf; 0xe5a6a8; 0xe88987; 0xe5909e; 0xe99f8b; 0xe680a8; 0xe79fae; 0xe6ad87].

(** bip39_dictionary.hpp:4182-6231 *)
Definition dict_czech : list Z := [
  0x616264696b616365; 0x61626563656461; 0x616472657361; 0x616772657365; 0x616b6365; 0x616b746f766b61; 0x616c656a; 0x616c6b6f686f6c;
  0x616d707574616365; 0x616e616e6173; 0x616e64756c6b61; 0x616e656b646f7461; 0x616e6b657461; 0x616e74696b61; 0x616e756c6f766174; 0x6172636861;
  0x61726f67616e6365; 0x617366616c74; 0x6173697374656e74; 0x6173706972616365; 0x6173746d61; 0x617374726f6e6f6d; 0x61746c6173; 0x61746c6574696b61;
  0x61746f6c; 0x6175746f627573; 0x617a796c; 0x6261626b61; 0x626163686f72; 0x626163696c; 0x626163756c6b61; 0x6261646174656c;
  0x626167657461; 0x62616772; 0x6261686e6f; 0x62616b7465726965; 0x62616c616461; 0x62616c65746b61; 0x62616c6b6f6e; 0x62616c6f6e656b;
  0x62616c76616e; 0x62616c7a61; 0x62616d627573; 0x62616e6b6f6d6174; 0x626172626172; 0x6261726574; 0x6261726d616e; 0x6261726f6b6f;
  0x6261727661; 0x62617465726b61; 0x6261746f68; 0x6261766c6e61; 0x62617a616c6b61; 0x62617a696c696b61; 0x62617a756b61; 0x6265646e61;
  0x626572616e; 0x626573656461; 0x626573746965; 0x6265746f6e; 0x62657a696e6b61; 0x62657a6d6f63; 0x62657a74616b; 0x626963796b6c;
  0x6269646c6f; 0x62696674656b; 0x62696b696e79; 0x62696c616e6365; 0x62696f67726166; 0x62696f6c6f67; 0x6269747661; 0x62697a6f6e;
  0x626c61686f627974; 0x626c61746f756368; 0x626c65636861; 0x626c6564756c65; 0x626c65736b; 0x626c696b6174; 0x626c697a6e61; 0x626c6f6b6f766174;
  0x626c6f75646974; 0x626c7564; 0x626f62656b; 0x626f6272; 0x626f646c696e61; 0x626f646e6f7574; 0x626f6861746f7374; 0x626f6a6b6f74;
  0x626f6a6f766174; 0x626f6b6f727973; 0x626f6c657374; 0x626f726563; 0x626f726f76696365; 0x626f7461; 0x626f7562656c; 0x626f7563686174;
  0x626f756461; 0x626f756c65; 0x626f75726174; 0x626f786572; 0x6272616461766b61; 0x6272616d626f7261; 0x6272616e6b61; 0x6272617472;
  0x627265707461; 0x6272696b657461; 0x62726b6f; 0x62726c6f68; 0x62726f6e7a; 0x62726f736b6576; 0x6272756e65746b61; 0x62727573696e6b61;
  0x62727a6461; 0x62727a79; 0x6275626c696e61; 0x6275626e6f766174; 0x627563687461; 0x6275646974656c; 0x6275646b61; 0x6275646f7661;
  0x6275666574; 0x62756a61726f7374; 0x62756b76696365; 0x62756c646f6b; 0x62756c7661; 0x62756e6461; 0x62756e6b72; 0x6275727a61;
  0x627574696b; 0x6275766f6c; 0x62757a6f6c61; 0x6279646c6574; 0x62796c696e61; 0x6279746f766b61; 0x627a756b6f74; 0x636170617274;
  0x63617265766e61; 0x63656472; 0x636564756c65; 0x63656a6368; 0x63656a6e; 0x63656c61; 0x63656c6572; 0x63656c6b656d;
  0x63656c6e696365; 0x63656e696e61; 0x63656e6e6f7374; 0x63656e6f766b61; 0x63656e7472756d; 0x63656e7a6f72; 0x636573746f706973; 0x6365746b61;
  0x6368616c757061; 0x6368617061646c6f; 0x63686172697461; 0x6368617461; 0x6368656368746174; 0x6368656d6965; 0x63686963686f74; 0x63686972757267;
  0x63686c6164; 0x63686c656261; 0x63686c75626974; 0x63686d656c; 0x63686d757261; 0x63686f626f74; 0x63686f63686f6c; 0x63686f646261;
  0x63686f6c657261; 0x63686f6d6f7574; 0x63686f706974; 0x63686f726f6261; 0x63686f76; 0x63687261706f74; 0x6368726c6974; 0x63687274;
  0x6368727570; 0x63687469766f7374; 0x63687564696e61; 0x636875746e6174; 0x6368766174; 0x636876696c6b61; 0x6368766f7374; 0x6368796261;
  0x63687973746174; 0x636879746974; 0x636962756c65; 0x6369676172657461; 0x636968656c6e61; 0x6369686c61; 0x63696e6b6f74; 0x6369726b7573;
  0x6369737465726e61; 0x636974616365; 0x636974727573; 0x63697a696e6563; 0x63697a6f7374; 0x636c6f6e61; 0x636f6b6f6c6976; 0x636f75766174;
  0x63746974656c; 0x63746e6f7374; 0x6375646e6f7374; 0x63756b657461; 0x63756b72; 0x6375706f74; 0x6376616b6e6f7574; 0x6376616c;
  0x6376696b; 0x6376726b6f74; 0x63796b6c69737461; 0x64616c656b6f; 0x646172656261; 0x646174656c; 0x646174756d; 0x6463657261;
  0x646562617461; 0x646563686f766b61; 0x6465636962656c; 0x64656669636974; 0x6465666c616365; 0x64656b6c; 0x64656b726574; 0x64656d6f6b726174;
  0x64657072657365; 0x6465726279; 0x6465736b61; 0x646574656b746976; 0x64696b6f6272617a; 0x64696b746f766174; 0x64696f6461; 0x6469706c6f6d;
  0x6469736b; 0x646973706c656a; 0x64697661646c6f; 0x6469766f6368; 0x646c616861; 0x646c6f75686f; 0x646c75686f706973; 0x646e6573;
  0x646f62726f; 0x646f627974656b; 0x646f63656e74; 0x646f636875746974; 0x646f646e6573; 0x646f686c6564; 0x646f686f6461; 0x646f687261;
  0x646f6a656d; 0x646f6a6e696365; 0x646f6b6c6164; 0x646f6b6f6c61; 0x646f6b746f72; 0x646f6b756d656e74; 0x646f6c6172; 0x646f6c657661;
  0x646f6c696e61; 0x646f6d61; 0x646f6d696e616e74; 0x646f6d6c75766974; 0x646f6d6f76; 0x646f6e75746974; 0x646f706164; 0x646f706973;
  0x646f706c6e6974; 0x646f706f737564; 0x646f70726f766f64; 0x646f707573746974; 0x646f72617a6974; 0x646f726f7374; 0x646f7274; 0x646f736168;
  0x646f736c6f76; 0x646f73746174656b; 0x646f737564; 0x646f73797461; 0x646f74617a; 0x646f74656b; 0x646f746b6e6f7574; 0x646f75666174;
  0x646f75746e6174; 0x646f766f7a6365; 0x646f7a616475; 0x646f7a6e6174; 0x646f7a6f726365; 0x647261686f7461; 0x6472616b; 0x6472616d6174696b;
  0x647261766563; 0x6472617a65; 0x6472646f6c; 0x64726f626e6f7374; 0x64726f6765726965; 0x64726f7a64; 0x6472736e6f7374; 0x6472746974;
  0x64727a6f7374; 0x647562656e; 0x647563686f766e6f; 0x647564656b; 0x64756861; 0x6475686f766b61; 0x6475736974; 0x6475736e6f;
  0x6475746f7374; 0x64766f6a696365; 0x64766f726563; 0x64796e616d6974; 0x656b6f6c6f67; 0x656b6f6e6f6d6965; 0x656c656b74726f6e; 0x656c69707361;
  0x656d61696c; 0x656d697365; 0x656d6f6365; 0x656d7061746965; 0x6570697a6f6461; 0x65706f636861; 0x65706f70656a; 0x65706f73;
  0x6573656a; 0x6573656e6365; 0x65736b6f727461; 0x65736b796d6f; 0x6574696b657461; 0x6575666f726965; 0x65766f6c756365; 0x6578656b756365;
  0x65786b75727a65; 0x6578706564696365; 0x6578706c6f7a65; 0x6578706f7274; 0x65787472616b74; 0x6661636b61; 0x66616a666b61; 0x66616b756c7461;
  0x66616e6174696b; 0x66616e74617a6965; 0x6661726d61636965; 0x6661766f726974; 0x66617a6f6c65; 0x6665646572616365; 0x66656a65746f6e; 0x66656e6b61;
  0x6669616c6b61; 0x6669677572616e74; 0x66696c6f7a6f66; 0x66696c7472; 0x66696e616e6365; 0x66696e7461; 0x666978616365; 0x666a6f7264;
  0x666c616e656c; 0x666c697274; 0x666c6f74696c61; 0x666f6e64; 0x666f73666f72; 0x666f7462616c; 0x666f746b61; 0x666f746f6e;
  0x6672616b6365; 0x667265736b61; 0x66726f6e7461; 0x66756b6172; 0x66756e6b6365; 0x66797a696b61; 0x67616c656a65; 0x676172616e74;
  0x67656e6574696b61; 0x67656f6c6f67; 0x67696c6f74696e61; 0x676c617a757261; 0x676c656a74; 0x676f6c656d; 0x676f6c6669737461; 0x676f74696b61;
  0x67726166; 0x6772616d6f666f6e; 0x6772616e756c65; 0x67726570; 0x6772696c; 0x67726f67; 0x67726f7465736b61; 0x67756d61;
  0x686164696365; 0x68616472; 0x68616c61; 0x68616c656e6b61; 0x68616e6261; 0x68616e6f706973; 0x6861726661; 0x68617270756e61;
  0x68617672616e; 0x6865626b6f7374; 0x68656a6b616c; 0x68656a6e6f; 0x68656a746d616e; 0x68656b746172; 0x68656c6d61; 0x68656d61746f6d;
  0x6865726563; 0x6865726e61; 0x6865736c6f; 0x68657a6b79; 0x686973746f72696b; 0x686c61646f766b61; 0x686c617369766b79; 0x686c617661;
  0x686c65646174; 0x686c656e; 0x686c6f6461766563; 0x686c6f68; 0x686c6f75706f7374; 0x686c746174; 0x686c7562696e61; 0x686c7563686f7461;
  0x686d6174; 0x686d6f7461; 0x686d797a; 0x686e6973; 0x686e6f6a69766f; 0x686e6f7574; 0x686f626c696e61; 0x686f626f6a;
  0x686f6368; 0x686f64696e79; 0x686f646c6174; 0x686f646e6f7461; 0x686f646f766174; 0x686f6a6e6f7374; 0x686f6b656a; 0x686f6c696e6b61;
  0x686f6c6b61; 0x686f6c7562; 0x686f6d6f6c65; 0x686f6e69746261; 0x686f6e6f72616365; 0x686f72616c; 0x686f726461; 0x686f72697a6f6e74;
  0x686f726b6f; 0x686f726c69766563; 0x686f726d6f6e; 0x686f726e696e61; 0x686f726f736b6f70; 0x686f727374766f; 0x686f73706f6461; 0x686f7374696e61;
  0x686f746f766f7374; 0x686f756261; 0x686f7566; 0x686f75706174; 0x686f75736b61; 0x686f766f72; 0x687261646261; 0x6872616e696365;
  0x687261766f7374; 0x6872617a6461; 0x6872626f6c656b; 0x687264696e61; 0x6872646c6f; 0x6872646f7374; 0x68726e656b; 0x68726f626b61;
  0x68726f6d616461; 0x68726f74; 0x68726f756461; 0x68726f7a656e; 0x687273746b61; 0x687275626f7374; 0x6872797a6174; 0x687562656e6f7374;
  0x6875626e6f7574; 0x6875646261; 0x68756b6f74; 0x68756d72; 0x687573697461; 0x687573746f7461; 0x68766f7a64; 0x6879626e6f7374;
  0x68796472616e74; 0x68796769656e61; 0x68796d6e61; 0x687973746572696b; 0x6964796c6b61; 0x69686e6564; 0x696b6f6e61; 0x696c757a65;
  0x696d756e697461; 0x696e66656b6365; 0x696e666c616365; 0x696e6b61736f; 0x696e6f76616365; 0x696e7370656b6365; 0x696e7465726e6574; 0x696e76616c696461;
  0x696e766573746f72; 0x696e7a65726365; 0x69726f6e6965; 0x6a61626c6b6f; 0x6a6163687461; 0x6a61686f6461; 0x6a616b6d696c65; 0x6a616b6f7374;
  0x6a616c6f766563; 0x6a616e746172; 0x6a61726d61726b; 0x6a61726f; 0x6a6173616e; 0x6a61736e6f; 0x6a61746b61; 0x6a61766f72;
  0x6a617a796b; 0x6a6564696e6563; 0x6a65646c65; 0x6a65646e6174656c; 0x6a65686c616e; 0x6a656b6f74; 0x6a656c656e; 0x6a656c69746f;
  0x6a656d6e6f7374; 0x6a656e6f6d; 0x6a6570696365; 0x6a657365746572; 0x6a65766974; 0x6a657a646563; 0x6a657a65726f; 0x6a696e616b;
  0x6a696e6479; 0x6a696e6f6368; 0x6a69736b7261; 0x6a6973746f7461; 0x6a6974726e696365; 0x6a697a7661; 0x6a6d656e6f766174; 0x6a6f67757274;
  0x6a75727461; 0x6b616261726574; 0x6b6162656c; 0x6b6162696e6574; 0x6b6163686e61; 0x6b61646574; 0x6b616469646c6f; 0x6b6168616e;
  0x6b616a616b; 0x6b616a757461; 0x6b616b616f; 0x6b616b747573; 0x6b616c616d697461; 0x6b616c686f7479; 0x6b616c696272; 0x6b616c6e6f7374;
  0x6b616d657261; 0x6b616d6b6f6c6976; 0x6b616d6e61; 0x6b616e6962616c; 0x6b616e6f65; 0x6b616e746f72; 0x6b6170616c696e61; 0x6b6170656c61;
  0x6b617069746f6c61; 0x6b61706b61; 0x6b61706c65; 0x6b61706f7461; 0x6b617072; 0x6b617075737461; 0x6b61707962617261; 0x6b6172616d656c;
  0x6b61726f746b61; 0x6b6172746f6e; 0x6b617361; 0x6b6174616c6f67; 0x6b617465647261; 0x6b61756365; 0x6b61757a61; 0x6b6176616c6563;
  0x6b617a616a6b61; 0x6b617a657461; 0x6b617a69766f7374; 0x6b64656b6f6c6976; 0x6b64657369; 0x6b65646c7562656e; 0x6b656d70; 0x6b6572616d696b61;
  0x6b696e6f; 0x6b6c6163656b; 0x6b6c616469766f; 0x6b6c616d; 0x6b6c61706f74; 0x6b6c6173696b61; 0x6b6c61756e; 0x6b6c6563;
  0x6b6c656e6261; 0x6b6c65706174; 0x6b6c65736e6f7574; 0x6b6c6964; 0x6b6c696d61; 0x6b6c69736e61; 0x6b6c6f626f756b; 0x6b6c6f6b616e;
  0x6b6c6f7061; 0x6b6c6f7562; 0x6b6c75626f766e61; 0x6b6c75736174; 0x6b6c757a6b6f7374; 0x6b6d656e; 0x6b6d69746174; 0x6b6d6f7472;
  0x6b6e696861; 0x6b6e6f74; 0x6b6f616c696365; 0x6b6f6265726563; 0x6b6f626b61; 0x6b6f626c696861; 0x6b6f62796c61; 0x6b6f636f7572;
  0x6b6f686f7574; 0x6b6f6a656e6563; 0x6b6f6b6f73; 0x6b6f6b74656a6c; 0x6b6f6c617073; 0x6b6f6c656461; 0x6b6f6c697a65; 0x6b6f6c6f;
  0x6b6f6d616e646f; 0x6b6f6d657461; 0x6b6f6d696b; 0x6b6f6d6e617461; 0x6b6f6d6f7261; 0x6b6f6d706173; 0x6b6f6d756e697461; 0x6b6f6e6174;
  0x6b6f6e63657074; 0x6b6f6e64696365; 0x6b6f6e6563; 0x6b6f6e66657365; 0x6b6f6e67726573; 0x6b6f6e696e61; 0x6b6f6e6b757273; 0x6b6f6e74616b74;
  0x6b6f6e7a65727661; 0x6b6f70616e6563; 0x6b6f706965; 0x6b6f706e6f7574; 0x6b6f70726f766b61; 0x6b6f7262656c; 0x6b6f72656b746f72; 0x6b6f726d69646c6f;
  0x6b6f726f70746576; 0x6b6f72707573; 0x6b6f72756e61; 0x6b6f7279746f; 0x6b6f727a6574; 0x6b6f7361746563; 0x6b6f73746b61; 0x6b6f74656c;
  0x6b6f746c657461; 0x6b6f746f756c; 0x6b6f756b6174; 0x6b6f7570656c6e61; 0x6b6f7573656b; 0x6b6f757a6c6f; 0x6b6f76626f6a; 0x6b6f7a61;
  0x6b6f7a6f726f68; 0x6b726162696365; 0x6b72616368; 0x6b72616a696e61; 0x6b72616c6f766174; 0x6b7261736f706973; 0x6b726176617461; 0x6b7265646974;
  0x6b72656a636172; 0x6b7265736261; 0x6b726576657461; 0x6b72696b6574; 0x6b726974696b; 0x6b72697a65; 0x6b726b61766563; 0x6b726d656c6563;
  0x6b726d69766f; 0x6b726f63616e; 0x6b726f6b; 0x6b726f6e696b61; 0x6b726f706974; 0x6b726f757061; 0x6b726f766b61; 0x6b7274656b;
  0x6b72756861646c6f; 0x6b727570696365; 0x6b7275746f7374; 0x6b7276696e6b61; 0x6b727963686c65; 0x6b7279707461; 0x6b72797374616c; 0x6b727974;
  0x6b75646c616e6b61; 0x6b756672; 0x6b756a6e6f7374; 0x6b756b6c61; 0x6b756c616a6461; 0x6b756c696368; 0x6b756c6b61; 0x6b756c6f6d6574;
  0x6b756c74757261; 0x6b756e61; 0x6b75706f64697675; 0x6b757274; 0x6b75727a6f72; 0x6b7574696c; 0x6b76616c697461; 0x6b766173696e6b61;
  0x6b766573746f72; 0x6b796e6f6c6f67; 0x6b7973656c696e61; 0x6b7974617261; 0x6b7974696365; 0x6b79746b61; 0x6b79746f766563; 0x6b797661646c6f;
  0x6c61627261646f72; 0x6c61636874616e; 0x6c61646e6f7374; 0x6c61696b; 0x6c616b6f6d6563; 0x6c616d656c61; 0x6c616d7061; 0x6c616e6f766b61;
  0x6c6173696365; 0x6c61736f; 0x6c617374757261; 0x6c6174696e6b61; 0x6c6176696e61; 0x6c65626b61; 0x6c65636b6479; 0x6c6564656e;
  0x6c65646e696365; 0x6c65646f766b61; 0x6c656476696e61; 0x6c6567656e6461; 0x6c65676965; 0x6c656772616365; 0x6c65686365; 0x6c65686b6f7374;
  0x6c65686e6f7574; 0x6c656b74766172; 0x6c656e6f63686f64; 0x6c656e74696c6b61; 0x6c6570656e6b61; 0x6c657069646c6f; 0x6c657461646c6f; 0x6c65746563;
  0x6c65746d6f; 0x6c65746f6b727568; 0x6c657668617274; 0x6c65766974616365; 0x6c65766f626f6b; 0x6c69627261; 0x6c6963686f746b61; 0x6c69646f6a6564;
  0x6c6964736b6f7374; 0x6c69686f76696e61; 0x6c696a61766563; 0x6c696c656b; 0x6c696d65746b61; 0x6c696e6965; 0x6c696e6b61; 0x6c696e6f6c65756d;
  0x6c6973746f706164; 0x6c6974696e61; 0x6c69746f766174; 0x6c6f6269737461; 0x6c6f6469766f64; 0x6c6f67696b61; 0x6c6f676f706564; 0x6c6f6b616c697461;
  0x6c6f6b6574; 0x6c6f6d636f766174; 0x6c6f70617461; 0x6c6f70756368; 0x6c6f7264; 0x6c6f736f73; 0x6c6f7472; 0x6c6f7564616c;
  0x6c6f7568; 0x6c6f756b61; 0x6c6f75736b6174; 0x6c6f766563; 0x6c737469766f7374; 0x6c756365726e61; 0x6c756369666572; 0x6c756d70;
  0x6c75736b; 0x6c75737472616365; 0x6c76696365; 0x6c797261; 0x6c7972696b61; 0x6c7973696e61; 0x6d6164616d; 0x6d61646c6f;
  0x6d616769737472; 0x6d616861676f6e; 0x6d616a6574656b; 0x6d616a6974656c; 0x6d616a6f72697461; 0x6d616b616b; 0x6d616b6f76696365; 0x6d616b72656c61;
  0x6d616c6261; 0x6d616c696e61; 0x6d616c6f766174; 0x6d616c76696365; 0x6d616d696e6b61; 0x6d616e646c65; 0x6d616e6b6f; 0x6d61726e6f7374;
  0x6d6173616b72; 0x6d61736b6f74; 0x6d61736f70757374; 0x6d6174696365; 0x6d617472696b61; 0x6d61747572697461; 0x6d617a616e6563; 0x6d617a69766f;
  0x6d617a6c6974; 0x6d617a75726b61; 0x6d646c6f6261; 0x6d656368616e696b; 0x6d65646974616365; 0x6d65646f76696e61; 0x6d656c617361; 0x6d656c6f756e;
  0x6d656e746f6c6b61; 0x6d65746c61; 0x6d65746f6461; 0x6d657472; 0x6d657a657261; 0x6d696772616365; 0x6d69686e6f7574; 0x6d6968756c65;
  0x6d696b696e61; 0x6d696b726f666f6e; 0x6d696c656e6563; 0x6d696c696d657472; 0x6d696c6f7374; 0x6d696d696b61; 0x6d696e636f766e61; 0x6d696e69626172;
  0x6d696e6f6d6574; 0x6d696e756c6f7374; 0x6d69736b61; 0x6d69737472; 0x6d69786f766174; 0x6d6c61646f7374; 0x6d6c6861; 0x6d6c686f76696e61;
  0x6d6c6f6b; 0x6d6c736174; 0x6d6c75766974; 0x6d6e696368; 0x6d6e6f68656d; 0x6d6f62696c; 0x6d6f636e6f7374; 0x6d6f64656c6b61;
  0x6d6f646c69746261; 0x6d6f68796c61; 0x6d6f6b726f; 0x6d6f6c656b756c61; 0x6d6f6d656e746b61; 0x6d6f6e6172636861; 0x6d6f6e6f6b6c; 0x6d6f6e737472756d;
  0x6d6f6e746f766174; 0x6d6f6e7a756e; 0x6d6f73617a; 0x6d6f736b7974; 0x6d6f7374; 0x6d6f746976616365; 0x6d6f746f726b61; 0x6d6f74796b61;
  0x6d6f75636861; 0x6d6f7564726f7374; 0x6d6f7a61696b61; 0x6d6f7a656b; 0x6d6f7a6f6c; 0x6d72616d6f72; 0x6d726176656e6563; 0x6d726b6576;
  0x6d7274766f6c61; 0x6d727a6574; 0x6d727a75746f7374; 0x6d73746974656c; 0x6d75647263; 0x6d75666c6f6e; 0x6d756c6174; 0x6d756d6965;
  0x6d756e696365; 0x6d75736574; 0x6d7574616365; 0x6d757a65756d; 0x6d757a696b616e74; 0x6d79736c69766563; 0x6d7a6461; 0x6e61626f75726174;
  0x6e61636879746174; 0x6e6164616365; 0x6e6164627974656b; 0x6e6164686f7a; 0x6e61646f62726f; 0x6e6164706973; 0x6e61686c6173; 0x6e61686e6174;
  0x6e61686f64696c65; 0x6e61687261646974; 0x6e616976697461; 0x6e616a65646e6f75; 0x6e616a6973746f; 0x6e616a6d6f7574; 0x6e616b6c6f6e6974; 0x6e616b6f6e6563;
  0x6e616b726d6974; 0x6e616c65766f; 0x6e616d617a6174; 0x6e616d6c75766974; 0x6e616e6f6d657472; 0x6e616f6b6f; 0x6e616f70616b; 0x6e616f7374726f;
  0x6e617061646174; 0x6e617065766e6f; 0x6e61706c6e6974; 0x6e61706e6f7574; 0x6e61706f736c6564; 0x6e6170726f73746f; 0x6e61726f646974; 0x6e6172756279;
  0x6e61727963686c6f; 0x6e617361646974; 0x6e6173656b6174; 0x6e61736c65706f; 0x6e6173746174; 0x6e61746f6c696b; 0x6e6176656e656b; 0x6e6176726368;
  0x6e61767a646f7279; 0x6e617a766174; 0x6e656265; 0x6e6563686174; 0x6e65636b79; 0x6e6564616c656b6f; 0x6e6564626174; 0x6e65647568;
  0x6e6567616365; 0x6e65686574; 0x6e65686f6461; 0x6e656a656e; 0x6e656a70727665; 0x6e656b6c6964; 0x6e656c69626f7374; 0x6e656d696c6f7374;
  0x6e656d6f63; 0x6e656f63686f7461; 0x6e656f6e6b61; 0x6e65706f6b6f6a; 0x6e65726f7374; 0x6e657276; 0x6e65736d79736c; 0x6e65736f756c6164;
  0x6e6574766f72; 0x6e6575726f6e; 0x6e6576696e61; 0x6e657a76796b6c65; 0x6e69636f7461; 0x6e696a616b; 0x6e696b616d; 0x6e696b6479;
  0x6e696b6c; 0x6e696b746572616b; 0x6e6974726f; 0x6e6f636c6568; 0x6e6f686176696365; 0x6e6f6d696e616365; 0x6e6f7261; 0x6e6f72656b;
  0x6e6f736974656c; 0x6e6f736e6f7374; 0x6e6f757a65; 0x6e6f76696e79; 0x6e6f766f7461; 0x6e6f7a647261; 0x6e756461; 0x6e75646c65;
  0x6e75676574; 0x6e75746974; 0x6e75746e6f7374; 0x6e7574726965; 0x6e796d6661; 0x6f62616c; 0x6f626172766974; 0x6f62617661;
  0x6f62646976; 0x6f626563; 0x6f6265686e6174; 0x6f62656a6d6f7574; 0x6f62657a697461; 0x6f6268616a6f6261; 0x6f62696c6e696365; 0x6f626a61736e6974;
  0x6f626a656b74; 0x6f626b6c6f706974; 0x6f626c617374; 0x6f626c656b; 0x6f626c696261; 0x6f626c6f6861; 0x6f626c756461; 0x6f626e6f73;
  0x6f626f6861746974; 0x6f626f6a656b; 0x6f626f7574; 0x6f6272617a6563; 0x6f62726e61; 0x6f6272756261; 0x6f62727973; 0x6f62736168;
  0x6f62736c756861; 0x6f62737461726174; 0x6f627576; 0x6f6276617a; 0x6f6276696e6974; 0x6f62766f64; 0x6f6276796b6c65; 0x6f6279766174656c;
  0x6f627a6f72; 0x6f636173; 0x6f63656c; 0x6f63656e6974; 0x6f63686c61646974; 0x6f63686f7461; 0x6f636872616e61; 0x6f6369746e6f7574;
  0x6f64626f6a; 0x6f64627974; 0x6f6463686f64; 0x6f6463697a6974; 0x6f646562726174; 0x6f6465736c6174; 0x6f6465767a646174; 0x6f64657a7661;
  0x6f646861646365; 0x6f64686f646974; 0x6f646a6574; 0x6f646a696e7564; 0x6f646b617a; 0x6f646b6f75706974; 0x6f646c6976; 0x6f646c756b61;
  0x6f646d6c6b61; 0x6f646f6c6e6f7374; 0x6f64706164; 0x6f64706973; 0x6f64706c6f7574; 0x6f64706f72; 0x6f64707573746974; 0x6f6470796b6174;
  0x6f6472617a6b61; 0x6f64736f75646974; 0x6f6473747570; 0x6f6473756e; 0x6f64746f6b; 0x6f64747564; 0x6f6476616861; 0x6f6476657461;
  0x6f64766f6c6174; 0x6f64767261636574; 0x6f647a6e616b; 0x6f66696e61; 0x6f6673616a64; 0x6f686c6173; 0x6f686e69736b6f; 0x6f6872616461;
  0x6f68726f7a6974; 0x6f6872797a656b; 0x6f6b6170; 0x6f6b656e696365; 0x6f6b6c696b61; 0x6f6b6e6f; 0x6f6b6f757a6c6974; 0x6f6b6f7679;
  0x6f6b72617361; 0x6f6b726573; 0x6f6b7273656b; 0x6f6b727568; 0x6f6b7570616e74; 0x6f6b75726b61; 0x6f6b75736974; 0x6f6c656a6e696e61;
  0x6f6c697a6f766174; 0x6f6d616b; 0x6f6d656c657461; 0x6f6d657a6974; 0x6f6d6c6164696e61; 0x6f6d6c6f75766174; 0x6f6d6c757661; 0x6f6d796c;
  0x6f6e65686479; 0x6f70616b6f766174; 0x6f706173656b; 0x6f706572616365; 0x6f70696365; 0x6f70696c6f7374; 0x6f7069736f766174; 0x6f706f7261;
  0x6f706f7a696365; 0x6f707261766475; 0x6f70726f7469; 0x6f72626974616c; 0x6f72636865737472; 0x6f72676965; 0x6f726c696365; 0x6f726c6f6a;
  0x6f7274656c; 0x6f73616461; 0x6f7363686e6f7574; 0x6f73696b61; 0x6f7369766f; 0x6f736c617661; 0x6f736c65706974; 0x6f736c6e6974;
  0x6f736c6f766974; 0x6f736e6f7661; 0x6f736f6261; 0x6f736f6c6974; 0x6f7370616c6563; 0x6f7374656e; 0x6f737472616861; 0x6f7374756461;
  0x6f7374796368; 0x6f73766f6a6974; 0x6f7465706c6974; 0x6f7469736b; 0x6f746f70; 0x6f7472686174; 0x6f74726c6f7374; 0x6f74726f6b;
  0x6f7472756279; 0x6f74766f72; 0x6f76616e6f7574; 0x6f766172; 0x6f766573; 0x6f766c69766e6974; 0x6f766f6365; 0x6f786964;
  0x6f7a646f6261; 0x706163686174656c; 0x70616369656e74; 0x7061646f756368; 0x7061686f72656b; 0x70616b74; 0x70616c616e6461; 0x70616c6563;
  0x70616c69766f; 0x70616c756261; 0x70616d666c6574; 0x70616d6c73656b; 0x70616e656e6b61; 0x70616e696b61; 0x70616e6e61; 0x70616e6f766174;
  0x70616e7374766f; 0x70616e746f666c65; 0x70617072696b61; 0x7061726b657461; 0x7061726f646965; 0x7061727461; 0x706172756b61; 0x706172796261;
  0x706173656b61; 0x7061736976697461; 0x70617374656c6b61; 0x706174656e74; 0x706174726f6e61; 0x7061766f756b; 0x70617a6e656874; 0x70617a6f7572656b;
  0x7065636b61; 0x70656461676f67; 0x70656a73656b; 0x70656b6c6f; 0x70656c6f746f6e; 0x70656e616c7461; 0x70656e6472656b; 0x70656e7a65;
  0x70657269736b6f70; 0x7065726f; 0x70657374726f7374; 0x70657461726461; 0x706574696365; 0x706574726f6c656a; 0x7065766e696e61; 0x70657865736f;
  0x7069616e69737461; 0x70696861; 0x70696a6176696365; 0x70696b6c65; 0x70696b6e696b; 0x70696c696e61; 0x70696c6e6f7374; 0x70696c756c6b61;
  0x70696e7a657461; 0x706970657461; 0x7069736174656c; 0x706973746f6c65; 0x70697465766e61; 0x7069766e696365; 0x7069766f766172; 0x706c6163656e7461;
  0x706c616b6174; 0x706c616d656e; 0x706c616e657461; 0x706c617374696b61; 0x706c61746974; 0x706c617669646c6f; 0x706c617a; 0x706c656368;
  0x706c656d656e6f; 0x706c656e7461; 0x706c6573; 0x706c657469766f; 0x706c6576656c; 0x706c69766174; 0x706c6e6974; 0x706c6e6f;
  0x706c6f636861; 0x706c6f64696e61; 0x706c6f6d6261; 0x706c6f7574; 0x706c756b; 0x706c796e; 0x706f6261766974; 0x706f627974;
  0x706f63686f64; 0x706f636974; 0x706f637469766563; 0x706f646174; 0x706f6463656e6974; 0x706f646570736174; 0x706f64686c6564; 0x706f6469766974;
  0x706f646b6c6164; 0x706f646d616e6974; 0x706f646e696b; 0x706f646f6261; 0x706f64706f7261; 0x706f6472617a; 0x706f647374617461; 0x706f64766f64;
  0x706f647a696d; 0x706f657a6965; 0x706f68616e6b61; 0x706f686e75746b61; 0x706f686f766f72; 0x706f68726f6d61; 0x706f687962; 0x706f696e7461;
  0x706f6a6973746b61; 0x706f6a6d6f7574; 0x706f6b617a6974; 0x706f6b6c6573; 0x706f6b6f6a; 0x706f6b726f6b; 0x706f6b757461; 0x706f6b796e;
  0x706f6c65646e65; 0x706f6c6962656b; 0x706f6c6b6e6f7574; 0x706f6c6f6861; 0x706f6c796e6f6d; 0x706f6d616c75; 0x706f6d696e6f7574; 0x706f6d6c6b61;
  0x706f6d6f63; 0x706f6d737461; 0x706f6d79736c6574; 0x706f6e6563686174; 0x706f6e6f726b61; 0x706f6e75726f7374; 0x706f7061646174; 0x706f70656c;
  0x706f706973656b; 0x706f706c616368; 0x706f70726f736974; 0x706f70736174; 0x706f707564; 0x706f7261646365; 0x706f726365; 0x706f726f64;
  0x706f7275636861; 0x706f727976; 0x706f7361646974; 0x706f736564; 0x706f73696c61; 0x706f736b6f6b; 0x706f736c616e6563; 0x706f736f75646974;
  0x706f73706f6c75; 0x706f7374617661; 0x706f737564656b; 0x706f737970; 0x706f746168; 0x706f746b616e; 0x706f746c65736b; 0x706f746f6d656b;
  0x706f7472617661; 0x706f74757061; 0x706f74766f7261; 0x706f756b617a; 0x706f75746f; 0x706f757a64726f; 0x706f76616861; 0x706f7669646c61;
  0x706f766c616b; 0x706f766f7a; 0x706f76726368; 0x706f7673746174; 0x706f76796b; 0x706f767a64656368; 0x706f7a64726176; 0x706f7a656d656b;
  0x706f7a6e6174656b; 0x706f7a6f72; 0x706f7a766174; 0x707261636f766174; 0x707261686f7279; 0x7072616b74696b61; 0x7072616c6573; 0x7072616f746563;
  0x707261706f72656b; 0x7072617365; 0x707261766461; 0x7072696e636970; 0x70726b6e6f; 0x70726f6275646974; 0x70726f63656e746f; 0x70726f64656a;
  0x70726f66657365; 0x70726f687261; 0x70726f6a656b74; 0x70726f6c6f6d6974; 0x70726f6d696c65; 0x70726f6e696b6174; 0x70726f706164; 0x70726f726f6b;
  0x70726f736261; 0x70726f746f6e; 0x70726f7574656b; 0x70726f76617a; 0x7072736b61766b61; 0x70727374656e; 0x707275646b6f7374; 0x70727574;
  0x707276656b; 0x7072766f686f7279; 0x7073616e6563; 0x70736f766f64; 0x707374727568; 0x7074616374766f; 0x70756265727461; 0x70756368;
  0x7075646c; 0x70756b61766563; 0x70756b6c696e61; 0x70756b726c65; 0x70756c74; 0x70756d7061; 0x70756e63; 0x707570656e;
  0x70757361; 0x707573696e6b61; 0x70757374696e61; 0x7075746f766174; 0x707574796b61; 0x707972616d696461; 0x7079736b; 0x707974656c;
  0x726163656b; 0x726163686f74; 0x72616469616365; 0x7261646e696365; 0x7261646f6e; 0x72616674; 0x7261676279; 0x72616b657461;
  0x72616b6f76696e61; 0x72616d656e6f; 0x72616d706f756368; 0x72616e6465; 0x726172616368; 0x726172697461; 0x7261736f766e61; 0x7261737472;
  0x7261746f6c657374; 0x72617a616e6365; 0x72617a69646c6f; 0x726561676f766174; 0x7265616b6365; 0x726563657074; 0x726564616b746f72; 0x7265666572656e74;
  0x7265666c6578; 0x72656a6e6f6b; 0x72656b6c616d61; 0x72656b6f7264; 0x72656b727574; 0x72656b746f72; 0x7265707574616365; 0x726576697a65;
  0x7265766d61; 0x7265766f6c766572; 0x72657a65727661; 0x7269736b6f766174; 0x72697a696b6f; 0x726f626f74696b61; 0x726f646f6b6d656e; 0x726f686f766b61;
  0x726f6b6c65; 0x726f6b6f6b6f; 0x726f6d616e65746f; 0x726f706f766f64; 0x726f7075636861; 0x726f72656a73; 0x726f736f6c; 0x726f73746c696e61;
  0x726f746d69737472; 0x726f746f706564; 0x726f74756e6461; 0x726f7562656e6b61; 0x726f7563686f; 0x726f7570; 0x726f757261; 0x726f76696e61;
  0x726f766e696365; 0x726f7a626f72; 0x726f7a63686f64; 0x726f7a646174; 0x726f7a657a6e6174; 0x726f7a686f646365; 0x726f7a696e6b61; 0x726f7a6a657a64;
  0x726f7a6b617a; 0x726f7a6c6f6861; 0x726f7a6d6172; 0x726f7a706164; 0x726f7a72756368; 0x726f7a736168; 0x726f7a746f6b; 0x726f7a756d;
  0x726f7a766f64; 0x72756272696b61; 0x7275636861646c6f; 0x72756b6176696365; 0x72756b6f706973; 0x72796261; 0x7279626f6c6f76; 0x727963686c6f7374;
  0x7279646c6f; 0x72797061646c6f; 0x727974696e61; 0x72797a6f7374; 0x73616469737461; 0x7361686174; 0x73616b6f; 0x73616d6563;
  0x73616d697a646174; 0x73616d6f7461; 0x73616e69746b61; 0x73617264696e6b61; 0x736173616e6b61; 0x736174656c6974; 0x73617a6261; 0x73617a656e696365;
  0x73626f72; 0x7363686f766174; 0x73656272616e6b61; 0x736563657365; 0x73656461646c6f; 0x736564696d656e74; 0x7365646c6f; 0x7365686e6174;
  0x73656a6d6f7574; 0x73656b657261; 0x73656b7461; 0x73656b756e6461; 0x73656b766f6a65; 0x73656d656e6f; 0x73656e6f; 0x736572766973;
  0x73657361646974; 0x736573686f7261; 0x7365736b6f6b; 0x7365736c6174; 0x736573747261; 0x7365737576; 0x73657379706174; 0x7365746261;
  0x736574696e61; 0x7365746b6174; 0x7365746e6f7574; 0x73657472766174; 0x7365766572; 0x73657a6e616d; 0x73686f6461; 0x7368726e6f7574;
  0x7369666f6e; 0x73696c6e696365; 0x7369726b61; 0x7369726f74656b; 0x7369727570; 0x73697475616365; 0x736b6166616e6472; 0x736b616c69736b6f;
  0x736b616e7a656e; 0x736b617574; 0x736b657074696b; 0x736b696361; 0x736b6c61646261; 0x736b6c656e696365; 0x736b6c6f; 0x736b6c757a;
  0x736b6f6261; 0x736b6f6b616e; 0x736b6f726f; 0x736b7269707461; 0x736b727a; 0x736b7570696e61; 0x736b766f7374; 0x736b76726e61;
  0x736c6162696b61; 0x736c616469646c6f; 0x736c616e696e61; 0x736c617374; 0x736c61766e6f7374; 0x736c65646f766174; 0x736c65706563; 0x736c657661;
  0x736c657a696e61; 0x736c6962; 0x736c696e61; 0x736c697a6e696365; 0x736c6f6e; 0x736c6f7570656b; 0x736c6f766f; 0x736c756368;
  0x736c756861; 0x736c756e6365; 0x736c75706b61; 0x736c7a61; 0x736d6172616764; 0x736d6574616e61; 0x736d696c7374766f; 0x736d6c6f757661;
  0x736d6f67; 0x736d726164; 0x736d726b; 0x736d72746b61; 0x736d7574656b; 0x736d79736c; 0x736e6164; 0x736e616861;
  0x736e6f62; 0x736f626f7461; 0x736f636861; 0x736f646f766b61; 0x736f6b6f6c; 0x736f706b61; 0x736f747661; 0x736f75626f6a;
  0x736f75636974; 0x736f75646365; 0x736f75686c6173; 0x736f756c6164; 0x736f756d72616b; 0x736f757072617661; 0x736f75736564; 0x736f75746f6b;
  0x736f757669736574; 0x7370616c6f766e61; 0x737061736974656c; 0x73706973; 0x73706c6176; 0x73706f64656b; 0x73706f6a656e6563; 0x73706f6c75;
  0x73706f6e7a6f72; 0x73706f726e6f7374; 0x73706f75737461; 0x737072636861; 0x73707573746974; 0x7372616e6461; 0x7372617a; 0x7372646365;
  0x73726e61; 0x73726e6563; 0x73726f766e6174; 0x737270656e; 0x73727374; 0x73727562; 0x7374616e696365; 0x737461726f737461;
  0x73746174696b61; 0x737461766261; 0x737465686e6f; 0x7374657a6b61; 0x73746f646f6c61; 0x73746f6c656b; 0x73746f7061; 0x73746f726e6f;
  0x73746f75706174; 0x737472616368; 0x7374726573; 0x737472686e6f7574; 0x7374726f6d; 0x737472756e61; 0x737475646e61; 0x737475706e696365;
  0x7374766f6c; 0x7374796b; 0x7375626a656b74; 0x73756274726f7079; 0x737563686172; 0x7375646f7374; 0x73756b6e6f; 0x73756e646174;
  0x73756e6f7574; 0x737572696b617461; 0x7375726f76696e61; 0x73766168; 0x7376616c7374766f; 0x7376657472; 0x737661746261; 0x7376617a656b;
  0x737669736c65; 0x73766974656b; 0x73766f626f6461; 0x73766f6469646c6f; 0x73766f726b61; 0x7376726162; 0x73796b61766b61; 0x73796b6f74;
  0x73796e656b; 0x73796e6f766563; 0x7379706174; 0x7379706b6f7374; 0x7379726f766f7374; 0x737973656c; 0x7379746f7374; 0x7461626c65746b61;
  0x746162756c65; 0x7461686f756e; 0x74616a656d6e6f; 0x74616a66756e; 0x74616a6761; 0x74616a6974; 0x74616a6e6f7374; 0x74616b74696b61;
  0x74616d686c65; 0x74616d706f6e; 0x74616e636f766174; 0x74616e6563; 0x74616e6b6572; 0x746170657461; 0x746176656e696e61; 0x74617a6174656c;
  0x746563686e696b61; 0x7465686479; 0x74656b7574696e61; 0x74656c65666f6e; 0x74656d6e6f7461; 0x74656e64656e6365; 0x74656e69737461; 0x74656e6f72;
  0x7465706c6f7461; 0x7465706e61; 0x746570727665; 0x74657261706965; 0x7465726d6f736b61; 0x74657874696c; 0x746963686f; 0x7469736b6f706973;
  0x746974756c656b; 0x746b61646c6563; 0x746b616e696e61; 0x746c61706b61; 0x746c65736b6174; 0x746c756b6f74; 0x746c757061; 0x746d656c;
  0x746f616c657461; 0x746f70696e6b61; 0x746f706f6c; 0x746f727a6f; 0x746f756861; 0x746f756c6563; 0x74726164696365; 0x7472616b746f72;
  0x7472616d70; 0x7472617361; 0x7472617665727a61; 0x747265666974; 0x7472657374; 0x7472657a6f72; 0x7472686176696e61; 0x7472686c696e61;
  0x74726f636875; 0x74726f6a696365; 0x74726f736b61; 0x74726f756261; 0x7472706365; 0x7472706974656c; 0x7472706b6f7374; 0x747275626563;
  0x74727563686c6974; 0x747275686c696365; 0x74727573; 0x7472766174; 0x74756479; 0x7475686e6f7574; 0x7475686f7374; 0x74756e647261;
  0x74757269737461; 0x7475726e616a; 0x74757a656d736b6f; 0x747661726f68; 0x74766f726261; 0x747672646f7374; 0x7476727a; 0x74796772;
  0x74796b6576; 0x75626f686f7374; 0x75626f7a65; 0x7562726174; 0x7562726f7573656b; 0x7562727573; 0x756279746f766e61; 0x7563686f;
  0x75637469766f7374; 0x756469766974; 0x75687261646974; 0x756a65646e6174; 0x756a6973746974; 0x756a6d6f7574; 0x756b617a6174656c; 0x756b6c69646e6974;
  0x756b6c6f6e6974; 0x756b6f74766974; 0x756b726f6a6974; 0x756c696365; 0x756c697461; 0x756c6f766974; 0x756d797661646c6f; 0x756e61766974;
  0x756e69666f726d61; 0x756e696b6e6f7574; 0x757061646e6f7574; 0x75706c61746e6974; 0x75706c796e6f7574; 0x75706f75746174; 0x75707261766974; 0x7572616e;
  0x7572617a6974; 0x757365646e6f7574; 0x7573696c6f766174; 0x75736d72746974; 0x75736e61646e6974; 0x75736e6f7574; 0x75736f75646974; 0x7573746c6174;
  0x757374726e6f7574; 0x757461686f766174; 0x75746b6174; 0x75746c756d6974; 0x75746f6e6f7574; 0x75746f70656e6563; 0x7574726f75736974; 0x7576616c6974;
  0x75766f6c6e6974; 0x75766f7a6f766b61; 0x757a647261766974; 0x757a656c; 0x757a656e696e61; 0x757a6c696e61; 0x757a6e6174; 0x7661676f6e;
  0x76616c636861; 0x76616c6f756e; 0x76616e61; 0x76616e64616c; 0x76616e696c6b61; 0x766172616e; 0x76617268616e79; 0x7661726f766174;
  0x7663656c6b75; 0x7663686f64; 0x76646f7661; 0x766564726f; 0x7665676574616365; 0x76656a6365; 0x76656c626c6f7564; 0x76656c65747268;
  0x76656c6974656c; 0x76656c6d6f63; 0x76656c72796261; 0x76656e6b6f76; 0x766572616e6461; 0x7665727a65; 0x766573656c6b61; 0x7665736b727a65;
  0x7665736e696365; 0x766573706f6475; 0x7665737461; 0x7665746572696e61; 0x76657665726b61; 0x76696272616365; 0x7669636872; 0x766964656f687261;
  0x766964696e61; 0x7669646c65; 0x76696c61; 0x76696e696365; 0x7669736574; 0x766974616c697461; 0x76697a65; 0x76697a69746b61;
  0x766a657a64; 0x766b6c6164; 0x766b7573; 0x766c616a6b61; 0x766c616b; 0x766c61736563; 0x766c65766f; 0x766c686b6f7374;
  0x766c6976; 0x766c6e6f766b61; 0x766c6f75706174; 0x766e75636f766174; 0x766e756b; 0x766f6461; 0x766f6469766f7374; 0x766f646f7a6e616b;
  0x766f647374766f; 0x766f6a656e736b79; 0x766f6a6e61; 0x766f6a736b6f; 0x766f6c616e74; 0x766f6c6261; 0x766f6c6974; 0x766f6c6e6f;
  0x766f736b6f766b61; 0x766f7a69646c6f; 0x766f7a6f766e61; 0x76707261766f; 0x767261626563; 0x767261636574; 0x76726168; 0x7672617461;
  0x76726261; 0x767263686f6c656b; 0x7672686174; 0x767273747661; 0x767274756c65; 0x767361646974; 0x7673746f75706974; 0x7673747570;
  0x76746970; 0x76796261766974; 0x767962726174; 0x767963686f766174; 0x7679646174; 0x7679647261; 0x7679666f746974; 0x7679686c65646174;
  0x7679686e6f7574; 0x7679686f646974; 0x7679687261646974; 0x76796875626974; 0x76796a61736e6974; 0x76796a6574; 0x76796a6d6f7574; 0x76796b6c6f706974;
  0x76796b6f6e6174; 0x76796c656b6174; 0x76796d617a6174; 0x76796d657a6974; 0x76796d697a6574; 0x76796d79736c6574; 0x76796e6563686174; 0x76796e696b6174;
  0x76796e75746974; 0x76797061646174; 0x7679706c61746974; 0x7679707261766974; 0x7679707573746974; 0x767972617a6974; 0x7679726f766e6174; 0x767972766174;
  0x7679736c6f766974; 0x7679736f6b6f; 0x7679737461766974; 0x767973756e6f7574; 0x76797379706174; 0x76797461736974; 0x76797465736174; 0x7679747261746974;
  0x767976696e6f7574; 0x7679766f6c6174; 0x7679767268656c; 0x76797a646f626974; 0x76797a6e6174; 0x767a616475; 0x767a6275646974; 0x767a63686f706974;
  0x767a646f72; 0x767a64756368; 0x767a647963686174; 0x767a6573747570; 0x767a686c6564656d; 0x767a6b617a; 0x767a6c796b6174; 0x767a6e696b;
  0x767a6f72656b; 0x767a706f757261; 0x767a746168; 0x767a74656b; 0x78796c6f666f6e; 0x7a6162726174; 0x7a616279646c6574; 0x7a6163686f766174;
  0x7a616461726d6f; 0x7a616475736974; 0x7a61666f756b6174; 0x7a61686c746974; 0x7a61686f646974; 0x7a616872616461; 0x7a6168796e6f7574; 0x7a616a61746563;
  0x7a616a6574; 0x7a616a6973746974; 0x7a616b6c65706174; 0x7a616b6f75706974; 0x7a616c65706974; 0x7a616d657a6974; 0x7a616d6f746174; 0x7a616d79736c6574;
  0x7a616e6563686174; 0x7a616e696b6174; 0x7a61706c61746974; 0x7a61706f6a6974; 0x7a6170736174; 0x7a6172617a6974; 0x7a61737461766974; 0x7a6173756e6f7574;
  0x7a6174616a6974; 0x7a6174656d6e6974; 0x7a61746b6e6f7574; 0x7a61756a6d6f7574; 0x7a6176616c6974; 0x7a6176656c6574; 0x7a6176696e6974; 0x7a61766f6c6174;
  0x7a617672746174; 0x7a617a766f6e6974; 0x7a6261766974; 0x7a6272757375; 0x7a6275646f766174; 0x7a627974656b; 0x7a64616c656b61; 0x7a6461726d61;
  0x7a6461746e6f7374; 0x7a6469766f; 0x7a646f626974; 0x7a64726f6a; 0x7a64766968; 0x7a64796d61646c6f; 0x7a656c656e696e61; 0x7a656d616e;
  0x7a656d696e61; 0x7a6570746174; 0x7a657a616475; 0x7a657a646f6c61; 0x7a6861746974; 0x7a686c746e6f7574; 0x7a686c75626f6b61; 0x7a686f746f766974;
  0x7a6872756261; 0x7a696d61; 0x7a696d6e696365; 0x7a6a656d6e6974; 0x7a6b6c616d6174; 0x7a6b6f756d6174; 0x7a6b7261746b61; 0x7a6b756d61766b61;
  0x7a6c61746f; 0x7a6c65686b61; 0x7a6c6f6261; 0x7a6c6f6d; 0x7a6c6f7374; 0x7a6c6f7a76796b; 0x7a6d61706f766174; 0x7a6d6172;
  0x7a6d6174656b; 0x7a6d696a65; 0x7a6d697a6574; 0x7a6d6f636e6974; 0x7a6d6f64726174; 0x7a6d727a6c696e61; 0x7a6d75746f766174; 0x7a6e616b;
  0x7a6e616c6f7374; 0x7a6e616d656e6174; 0x7a6e6f7675; 0x7a6f6272617a6974; 0x7a6f7461766974; 0x7a6f7562656b; 0x7a6f7566616c65; 0x7a706c6f646974;
  0x7a706f6d616c6974; 0x7a7072617661; 0x7a70726f73746974; 0x7a707275646b61; 0x7a70727675; 0x7a72616461; 0x7a72616e6974; 0x7a726361646c6f;
  0x7a726e69746f7374; 0x7a726e6f; 0x7a726f766e61; 0x7a727963686c6974; 0x7a727a61766f7374; 0x7a7469636861; 0x7a747261746974; 0x7a75626f76696e61;
  0x7a756272; 0x7a7665646e6f7574; 0x7a76656e6b75; 0x7a766573656c61; 0x7a766f6e; 0x7a76726174; 0x7a76756b6f766f64; 0x7a76796b].

(** bip39_dictionary.hpp:6232-8281 *)
Definition dict_english : list Z := [
  0x6162616e646f6e; 0x6162696c697479; 0x61626c65; 0x61626f7574; 0x61626f7665; 0x616273656e74; 0x6162736f7262; 0x6162737472616374;
  0x616273757264; 0x6162757365; 0x616363657373; 0x6163636964656e74; 0x6163636f756e74; 0x616363757365; 0x61636869657665; 0x61636964;
  0x61636f7573746963; 0x61637175697265; 0x6163726f7373; 0x616374; 0x616374696f6e; 0x6163746f72; 0x61637472657373; 0x61637475616c;
  0x6164617074; 0x616464; 0x616464696374; 0x61646472657373; 0x61646a757374; 0x61646d6974; 0x6164756c74; 0x616476616e6365;
  0x616476696365; 0x6165726f626963; 0x616666616972; 0x6166666f7264; 0x616672616964; 0x616761696e; 0x616765; 0x6167656e74;
  0x6167726565; 0x6168656164; 0x61696d; 0x616972; 0x616972706f7274; 0x6169736c65; 0x616c61726d; 0x616c62756d;
  0x616c636f686f6c; 0x616c657274; 0x616c69656e; 0x616c6c; 0x616c6c6579; 0x616c6c6f77; 0x616c6d6f7374; 0x616c6f6e65;
  0x616c706861; 0x616c7265616479; 0x616c736f; 0x616c746572; 0x616c77617973; 0x616d6174657572; 0x616d617a696e67; 0x616d6f6e67;
  0x616d6f756e74; 0x616d75736564; 0x616e616c797374; 0x616e63686f72; 0x616e6369656e74; 0x616e676572; 0x616e676c65; 0x616e677279;
  0x616e696d616c; 0x616e6b6c65; 0x616e6e6f756e6365; 0x616e6e75616c; 0x616e6f74686572; 0x616e73776572; 0x616e74656e6e61; 0x616e7469717565;
  0x616e7869657479; 0x616e79; 0x6170617274; 0x61706f6c6f6779; 0x617070656172; 0x6170706c65; 0x617070726f7665; 0x617072696c;
  0x61726368; 0x617263746963; 0x61726561; 0x6172656e61; 0x6172677565; 0x61726d; 0x61726d6564; 0x61726d6f72;
  0x61726d79; 0x61726f756e64; 0x617272616e6765; 0x617272657374; 0x617272697665; 0x6172726f77; 0x617274; 0x6172746566616374;
  0x617274697374; 0x617274776f726b; 0x61736b; 0x617370656374; 0x61737361756c74; 0x6173736574; 0x617373697374; 0x617373756d65;
  0x617374686d61; 0x6174686c657465; 0x61746f6d; 0x61747461636b; 0x617474656e64; 0x6174746974756465; 0x61747472616374; 0x61756374696f6e;
  0x6175646974; 0x617567757374; 0x61756e74; 0x617574686f72; 0x6175746f; 0x617574756d6e; 0x61766572616765; 0x61766f6361646f;
  0x61766f6964; 0x6177616b65; 0x6177617265; 0x61776179; 0x617765736f6d65; 0x617766756c; 0x61776b77617264; 0x61786973;
  0x62616279; 0x62616368656c6f72; 0x6261636f6e; 0x6261646765; 0x626167; 0x62616c616e6365; 0x62616c636f6e79; 0x62616c6c;
  0x62616d626f6f; 0x62616e616e61; 0x62616e6e6572; 0x626172; 0x626172656c79; 0x6261726761696e; 0x62617272656c; 0x62617365;
  0x6261736963; 0x6261736b6574; 0x626174746c65; 0x6265616368; 0x6265616e; 0x626561757479; 0x62656361757365; 0x6265636f6d65;
  0x62656566; 0x6265666f7265; 0x626567696e; 0x626568617665; 0x626568696e64; 0x62656c69657665; 0x62656c6f77; 0x62656c74;
  0x62656e6368; 0x62656e65666974; 0x62657374; 0x626574726179; 0x626574746572; 0x6265747765656e; 0x6265796f6e64; 0x62696379636c65;
  0x626964; 0x62696b65; 0x62696e64; 0x62696f6c6f6779; 0x62697264; 0x6269727468; 0x626974746572; 0x626c61636b;
  0x626c616465; 0x626c616d65; 0x626c616e6b6574; 0x626c617374; 0x626c65616b; 0x626c657373; 0x626c696e64; 0x626c6f6f64;
  0x626c6f73736f6d; 0x626c6f757365; 0x626c7565; 0x626c7572; 0x626c757368; 0x626f617264; 0x626f6174; 0x626f6479;
  0x626f696c; 0x626f6d62; 0x626f6e65; 0x626f6e7573; 0x626f6f6b; 0x626f6f7374; 0x626f72646572; 0x626f72696e67;
  0x626f72726f77; 0x626f7373; 0x626f74746f6d; 0x626f756e6365; 0x626f78; 0x626f79; 0x627261636b6574; 0x627261696e;
  0x6272616e64; 0x6272617373; 0x6272617665; 0x6272656164; 0x627265657a65; 0x627269636b; 0x627269646765; 0x6272696566;
  0x627269676874; 0x6272696e67; 0x627269736b; 0x62726f63636f6c69; 0x62726f6b656e; 0x62726f6e7a65; 0x62726f6f6d; 0x62726f74686572;
  0x62726f776e; 0x6272757368; 0x627562626c65; 0x6275646479; 0x627564676574; 0x62756666616c6f; 0x6275696c64; 0x62756c62;
  0x62756c6b; 0x62756c6c6574; 0x62756e646c65; 0x62756e6b6572; 0x62757264656e; 0x627572676572; 0x6275727374; 0x627573;
  0x627573696e657373; 0x62757379; 0x627574746572; 0x6275796572; 0x62757a7a; 0x63616262616765; 0x636162696e; 0x6361626c65;
  0x636163747573; 0x63616765; 0x63616b65; 0x63616c6c; 0x63616c6d; 0x63616d657261; 0x63616d70; 0x63616e;
  0x63616e616c; 0x63616e63656c; 0x63616e6479; 0x63616e6e6f6e; 0x63616e6f65; 0x63616e766173; 0x63616e796f6e; 0x63617061626c65;
  0x6361706974616c; 0x6361707461696e; 0x636172; 0x636172626f6e; 0x63617264; 0x636172676f; 0x636172706574; 0x6361727279;
  0x63617274; 0x63617365; 0x63617368; 0x636173696e6f; 0x636173746c65; 0x63617375616c; 0x636174; 0x636174616c6f67;
  0x6361746368; 0x63617465676f7279; 0x636174746c65; 0x636175676874; 0x6361757365; 0x63617574696f6e; 0x63617665; 0x6365696c696e67;
  0x63656c657279; 0x63656d656e74; 0x63656e737573; 0x63656e74757279; 0x63657265616c; 0x6365727461696e; 0x6368616972; 0x6368616c6b;
  0x6368616d70696f6e; 0x6368616e6765; 0x6368616f73; 0x63686170746572; 0x636861726765; 0x6368617365; 0x63686174; 0x6368656170;
  0x636865636b; 0x636865657365; 0x63686566; 0x636865727279; 0x6368657374; 0x636869636b656e; 0x6368696566; 0x6368696c64;
  0x6368696d6e6579; 0x63686f696365; 0x63686f6f7365; 0x6368726f6e6963; 0x636875636b6c65; 0x6368756e6b; 0x636875726e; 0x6369676172;
  0x63696e6e616d6f6e; 0x636972636c65; 0x636974697a656e; 0x63697479; 0x636976696c; 0x636c61696d; 0x636c6170; 0x636c6172696679;
  0x636c6177; 0x636c6179; 0x636c65616e; 0x636c65726b; 0x636c65766572; 0x636c69636b; 0x636c69656e74; 0x636c696666;
  0x636c696d62; 0x636c696e6963; 0x636c6970; 0x636c6f636b; 0x636c6f67; 0x636c6f7365; 0x636c6f7468; 0x636c6f7564;
  0x636c6f776e; 0x636c7562; 0x636c756d70; 0x636c7573746572; 0x636c75746368; 0x636f616368; 0x636f617374; 0x636f636f6e7574;
  0x636f6465; 0x636f66666565; 0x636f696c; 0x636f696e; 0x636f6c6c656374; 0x636f6c6f72; 0x636f6c756d6e; 0x636f6d62696e65;
  0x636f6d65; 0x636f6d666f7274; 0x636f6d6963; 0x636f6d6d6f6e; 0x636f6d70616e79; 0x636f6e63657274; 0x636f6e64756374; 0x636f6e6669726d;
  0x636f6e6772657373; 0x636f6e6e656374; 0x636f6e7369646572; 0x636f6e74726f6c; 0x636f6e76696e6365; 0x636f6f6b; 0x636f6f6c; 0x636f70706572;
  0x636f7079; 0x636f72616c; 0x636f7265; 0x636f726e; 0x636f7272656374; 0x636f7374; 0x636f74746f6e; 0x636f756368;
  0x636f756e747279; 0x636f75706c65; 0x636f75727365; 0x636f7573696e; 0x636f766572; 0x636f796f7465; 0x637261636b; 0x637261646c65;
  0x6372616674; 0x6372616d; 0x6372616e65; 0x6372617368; 0x637261746572; 0x637261776c; 0x6372617a79; 0x637265616d;
  0x637265646974; 0x637265656b; 0x63726577; 0x637269636b6574; 0x6372696d65; 0x6372697370; 0x637269746963; 0x63726f70;
  0x63726f7373; 0x63726f756368; 0x63726f7764; 0x6372756369616c; 0x637275656c; 0x637275697365; 0x6372756d626c65; 0x6372756e6368;
  0x6372757368; 0x637279; 0x6372797374616c; 0x63756265; 0x63756c74757265; 0x637570; 0x637570626f617264; 0x637572696f7573;
  0x63757272656e74; 0x6375727461696e; 0x6375727665; 0x63757368696f6e; 0x637573746f6d; 0x63757465; 0x6379636c65; 0x646164;
  0x64616d616765; 0x64616d70; 0x64616e6365; 0x64616e676572; 0x646172696e67; 0x64617368; 0x6461756768746572; 0x6461776e;
  0x646179; 0x6465616c; 0x646562617465; 0x646562726973; 0x646563616465; 0x646563656d626572; 0x646563696465; 0x6465636c696e65;
  0x6465636f72617465; 0x6465637265617365; 0x64656572; 0x646566656e7365; 0x646566696e65; 0x64656679; 0x646567726565; 0x64656c6179;
  0x64656c69766572; 0x64656d616e64; 0x64656d697365; 0x64656e69616c; 0x64656e74697374; 0x64656e79; 0x646570617274; 0x646570656e64;
  0x6465706f736974; 0x6465707468; 0x646570757479; 0x646572697665; 0x6465736372696265; 0x646573657274; 0x64657369676e; 0x6465736b;
  0x64657370616972; 0x64657374726f79; 0x64657461696c; 0x646574656374; 0x646576656c6f70; 0x646576696365; 0x6465766f7465; 0x6469616772616d;
  0x6469616c; 0x6469616d6f6e64; 0x6469617279; 0x64696365; 0x64696573656c; 0x64696574; 0x646966666572; 0x6469676974616c;
  0x6469676e697479; 0x64696c656d6d61; 0x64696e6e6572; 0x64696e6f73617572; 0x646972656374; 0x64697274; 0x6469736167726565; 0x646973636f766572;
  0x64697365617365; 0x64697368; 0x6469736d697373; 0x6469736f72646572; 0x646973706c6179; 0x64697374616e6365; 0x646976657274; 0x646976696465;
  0x6469766f726365; 0x64697a7a79; 0x646f63746f72; 0x646f63756d656e74; 0x646f67; 0x646f6c6c; 0x646f6c7068696e; 0x646f6d61696e;
  0x646f6e617465; 0x646f6e6b6579; 0x646f6e6f72; 0x646f6f72; 0x646f7365; 0x646f75626c65; 0x646f7665; 0x6472616674;
  0x647261676f6e; 0x6472616d61; 0x64726173746963; 0x64726177; 0x647265616d; 0x6472657373; 0x6472696674; 0x6472696c6c;
  0x6472696e6b; 0x64726970; 0x6472697665; 0x64726f70; 0x6472756d; 0x647279; 0x6475636b; 0x64756d62;
  0x64756e65; 0x647572696e67; 0x64757374; 0x6475746368; 0x64757479; 0x6477617266; 0x64796e616d6963; 0x6561676572;
  0x6561676c65; 0x6561726c79; 0x6561726e; 0x6561727468; 0x656173696c79; 0x65617374; 0x65617379; 0x6563686f;
  0x65636f6c6f6779; 0x65636f6e6f6d79; 0x65646765; 0x65646974; 0x65647563617465; 0x6566666f7274; 0x656767; 0x6569676874;
  0x656974686572; 0x656c626f77; 0x656c646572; 0x656c656374726963; 0x656c6567616e74; 0x656c656d656e74; 0x656c657068616e74; 0x656c657661746f72;
  0x656c697465; 0x656c7365; 0x656d6261726b; 0x656d626f6479; 0x656d6272616365; 0x656d65726765; 0x656d6f74696f6e; 0x656d706c6f79;
  0x656d706f776572; 0x656d707479; 0x656e61626c65; 0x656e616374; 0x656e64; 0x656e646c657373; 0x656e646f727365; 0x656e656d79;
  0x656e65726779; 0x656e666f726365; 0x656e67616765; 0x656e67696e65; 0x656e68616e6365; 0x656e6a6f79; 0x656e6c697374; 0x656e6f756768;
  0x656e72696368; 0x656e726f6c6c; 0x656e73757265; 0x656e746572; 0x656e74697265; 0x656e747279; 0x656e76656c6f7065; 0x657069736f6465;
  0x657175616c; 0x6571756970; 0x657261; 0x6572617365; 0x65726f6465; 0x65726f73696f6e; 0x6572726f72; 0x6572757074;
  0x657363617065; 0x6573736179; 0x657373656e6365; 0x657374617465; 0x657465726e616c; 0x657468696373; 0x65766964656e6365; 0x6576696c;
  0x65766f6b65; 0x65766f6c7665; 0x6578616374; 0x6578616d706c65; 0x657863657373; 0x65786368616e6765; 0x657863697465; 0x6578636c756465;
  0x657863757365; 0x65786563757465; 0x6578657263697365; 0x65786861757374; 0x65786869626974; 0x6578696c65; 0x6578697374; 0x65786974;
  0x65786f746963; 0x657870616e64; 0x657870656374; 0x657870697265; 0x6578706c61696e; 0x6578706f7365; 0x65787072657373; 0x657874656e64;
  0x6578747261; 0x657965; 0x65796562726f77; 0x666162726963; 0x66616365; 0x666163756c7479; 0x66616465; 0x6661696e74;
  0x6661697468; 0x66616c6c; 0x66616c7365; 0x66616d65; 0x66616d696c79; 0x66616d6f7573; 0x66616e; 0x66616e6379;
  0x66616e74617379; 0x6661726d; 0x66617368696f6e; 0x666174; 0x666174616c; 0x666174686572; 0x66617469677565; 0x6661756c74;
  0x6661766f72697465; 0x66656174757265; 0x6665627275617279; 0x6665646572616c; 0x666565; 0x66656564; 0x6665656c; 0x66656d616c65;
  0x66656e6365; 0x666573746976616c; 0x6665746368; 0x6665766572; 0x666577; 0x6669626572; 0x66696374696f6e; 0x6669656c64;
  0x666967757265; 0x66696c65; 0x66696c6d; 0x66696c746572; 0x66696e616c; 0x66696e64; 0x66696e65; 0x66696e676572;
  0x66696e697368; 0x66697265; 0x6669726d; 0x6669727374; 0x66697363616c; 0x66697368; 0x666974; 0x6669746e657373;
  0x666978; 0x666c6167; 0x666c616d65; 0x666c617368; 0x666c6174; 0x666c61766f72; 0x666c6565; 0x666c69676874;
  0x666c6970; 0x666c6f6174; 0x666c6f636b; 0x666c6f6f72; 0x666c6f776572; 0x666c756964; 0x666c757368; 0x666c79;
  0x666f616d; 0x666f637573; 0x666f67; 0x666f696c; 0x666f6c64; 0x666f6c6c6f77; 0x666f6f64; 0x666f6f74;
  0x666f726365; 0x666f72657374; 0x666f72676574; 0x666f726b; 0x666f7274756e65; 0x666f72756d; 0x666f7277617264; 0x666f7373696c;
  0x666f73746572; 0x666f756e64; 0x666f78; 0x66726167696c65; 0x6672616d65; 0x6672657175656e74; 0x6672657368; 0x667269656e64;
  0x6672696e6765; 0x66726f67; 0x66726f6e74; 0x66726f7374; 0x66726f776e; 0x66726f7a656e; 0x6672756974; 0x6675656c;
  0x66756e; 0x66756e6e79; 0x6675726e616365; 0x66757279; 0x667574757265; 0x676164676574; 0x6761696e; 0x67616c617879;
  0x67616c6c657279; 0x67616d65; 0x676170; 0x676172616765; 0x67617262616765; 0x67617264656e; 0x6761726c6963; 0x6761726d656e74;
  0x676173; 0x67617370; 0x67617465; 0x676174686572; 0x6761756765; 0x67617a65; 0x67656e6572616c; 0x67656e697573;
  0x67656e7265; 0x67656e746c65; 0x67656e75696e65; 0x67657374757265; 0x67686f7374; 0x6769616e74; 0x67696674; 0x676967676c65;
  0x67696e676572; 0x67697261666665; 0x6769726c; 0x67697665; 0x676c6164; 0x676c616e6365; 0x676c617265; 0x676c617373;
  0x676c696465; 0x676c696d707365; 0x676c6f6265; 0x676c6f6f6d; 0x676c6f7279; 0x676c6f7665; 0x676c6f77; 0x676c7565;
  0x676f6174; 0x676f6464657373; 0x676f6c64; 0x676f6f64; 0x676f6f7365; 0x676f72696c6c61; 0x676f7370656c; 0x676f73736970;
  0x676f7665726e; 0x676f776e; 0x67726162; 0x6772616365; 0x677261696e; 0x6772616e74; 0x6772617065; 0x6772617373;
  0x67726176697479; 0x6772656174; 0x677265656e; 0x67726964; 0x6772696566; 0x67726974; 0x67726f63657279; 0x67726f7570;
  0x67726f77; 0x6772756e74; 0x6775617264; 0x6775657373; 0x6775696465; 0x6775696c74; 0x677569746172; 0x67756e;
  0x67796d; 0x6861626974; 0x68616972; 0x68616c66; 0x68616d6d6572; 0x68616d73746572; 0x68616e64; 0x6861707079;
  0x686172626f72; 0x68617264; 0x6861727368; 0x68617276657374; 0x686174; 0x68617665; 0x6861776b; 0x68617a617264;
  0x68656164; 0x6865616c7468; 0x6865617274; 0x6865617679; 0x6865646765686f67; 0x686569676874; 0x68656c6c6f; 0x68656c6d6574;
  0x68656c70; 0x68656e; 0x6865726f; 0x68696464656e; 0x68696768; 0x68696c6c; 0x68696e74; 0x686970;
  0x68697265; 0x686973746f7279; 0x686f626279; 0x686f636b6579; 0x686f6c64; 0x686f6c65; 0x686f6c69646179; 0x686f6c6c6f77;
  0x686f6d65; 0x686f6e6579; 0x686f6f64; 0x686f7065; 0x686f726e; 0x686f72726f72; 0x686f727365; 0x686f73706974616c;
  0x686f7374; 0x686f74656c; 0x686f7572; 0x686f766572; 0x687562; 0x68756765; 0x68756d616e; 0x68756d626c65;
  0x68756d6f72; 0x68756e64726564; 0x68756e677279; 0x68756e74; 0x687572646c65; 0x6875727279; 0x68757274; 0x68757362616e64;
  0x687962726964; 0x696365; 0x69636f6e; 0x69646561; 0x6964656e74696679; 0x69646c65; 0x69676e6f7265; 0x696c6c;
  0x696c6c6567616c; 0x696c6c6e657373; 0x696d616765; 0x696d6974617465; 0x696d6d656e7365; 0x696d6d756e65; 0x696d70616374; 0x696d706f7365;
  0x696d70726f7665; 0x696d70756c7365; 0x696e6368; 0x696e636c756465; 0x696e636f6d65; 0x696e637265617365; 0x696e646578; 0x696e646963617465;
  0x696e646f6f72; 0x696e647573747279; 0x696e66616e74; 0x696e666c696374; 0x696e666f726d; 0x696e68616c65; 0x696e6865726974; 0x696e697469616c;
  0x696e6a656374; 0x696e6a757279; 0x696e6d617465; 0x696e6e6572; 0x696e6e6f63656e74; 0x696e707574; 0x696e7175697279; 0x696e73616e65;
  0x696e73656374; 0x696e73696465; 0x696e7370697265; 0x696e7374616c6c; 0x696e74616374; 0x696e746572657374; 0x696e746f; 0x696e76657374;
  0x696e76697465; 0x696e766f6c7665; 0x69726f6e; 0x69736c616e64; 0x69736f6c617465; 0x6973737565; 0x6974656d; 0x69766f7279;
  0x6a61636b6574; 0x6a6167756172; 0x6a6172; 0x6a617a7a; 0x6a65616c6f7573; 0x6a65616e73; 0x6a656c6c79; 0x6a6577656c;
  0x6a6f62; 0x6a6f696e; 0x6a6f6b65; 0x6a6f75726e6579; 0x6a6f79; 0x6a75646765; 0x6a75696365; 0x6a756d70;
  0x6a756e676c65; 0x6a756e696f72; 0x6a756e6b; 0x6a757374; 0x6b616e6761726f6f; 0x6b65656e; 0x6b656570; 0x6b657463687570;
  0x6b6579; 0x6b69636b; 0x6b6964; 0x6b69646e6579; 0x6b696e64; 0x6b696e67646f6d; 0x6b697373; 0x6b6974;
  0x6b69746368656e; 0x6b697465; 0x6b697474656e; 0x6b697769; 0x6b6e6565; 0x6b6e696665; 0x6b6e6f636b; 0x6b6e6f77;
  0x6c6162; 0x6c6162656c; 0x6c61626f72; 0x6c6164646572; 0x6c616479; 0x6c616b65; 0x6c616d70; 0x6c616e6775616765;
  0x6c6170746f70; 0x6c61726765; 0x6c61746572; 0x6c6174696e; 0x6c61756768; 0x6c61756e647279; 0x6c617661; 0x6c6177;
  0x6c61776e; 0x6c617773756974; 0x6c61796572; 0x6c617a79; 0x6c6561646572; 0x6c656166; 0x6c6561726e; 0x6c65617665;
  0x6c656374757265; 0x6c656674; 0x6c6567; 0x6c6567616c; 0x6c6567656e64; 0x6c656973757265; 0x6c656d6f6e; 0x6c656e64;
  0x6c656e677468; 0x6c656e73; 0x6c656f70617264; 0x6c6573736f6e; 0x6c6574746572; 0x6c6576656c; 0x6c696172; 0x6c696265727479;
  0x6c696272617279; 0x6c6963656e7365; 0x6c696665; 0x6c696674; 0x6c69676874; 0x6c696b65; 0x6c696d62; 0x6c696d6974;
  0x6c696e6b; 0x6c696f6e; 0x6c6971756964; 0x6c697374; 0x6c6974746c65; 0x6c697665; 0x6c697a617264; 0x6c6f6164;
  0x6c6f616e; 0x6c6f6273746572; 0x6c6f63616c; 0x6c6f636b; 0x6c6f676963; 0x6c6f6e656c79; 0x6c6f6e67; 0x6c6f6f70;
  0x6c6f7474657279; 0x6c6f7564; 0x6c6f756e6765; 0x6c6f7665; 0x6c6f79616c; 0x6c75636b79; 0x6c756767616765; 0x6c756d626572;
  0x6c756e6172; 0x6c756e6368; 0x6c7578757279; 0x6c7972696373; 0x6d616368696e65; 0x6d6164; 0x6d61676963; 0x6d61676e6574;
  0x6d616964; 0x6d61696c; 0x6d61696e; 0x6d616a6f72; 0x6d616b65; 0x6d616d6d616c; 0x6d616e; 0x6d616e616765;
  0x6d616e64617465; 0x6d616e676f; 0x6d616e73696f6e; 0x6d616e75616c; 0x6d61706c65; 0x6d6172626c65; 0x6d61726368; 0x6d617267696e;
  0x6d6172696e65; 0x6d61726b6574; 0x6d61727269616765; 0x6d61736b; 0x6d617373; 0x6d6173746572; 0x6d61746368; 0x6d6174657269616c;
  0x6d617468; 0x6d6174726978; 0x6d6174746572; 0x6d6178696d756d; 0x6d617a65; 0x6d6561646f77; 0x6d65616e; 0x6d656173757265;
  0x6d656174; 0x6d656368616e6963; 0x6d6564616c; 0x6d65646961; 0x6d656c6f6479; 0x6d656c74; 0x6d656d626572; 0x6d656d6f7279;
  0x6d656e74696f6e; 0x6d656e75; 0x6d65726379; 0x6d65726765; 0x6d65726974; 0x6d65727279; 0x6d657368; 0x6d657373616765;
  0x6d6574616c; 0x6d6574686f64; 0x6d6964646c65; 0x6d69646e69676874; 0x6d696c6b; 0x6d696c6c696f6e; 0x6d696d6963; 0x6d696e64;
  0x6d696e696d756d; 0x6d696e6f72; 0x6d696e757465; 0x6d697261636c65; 0x6d6972726f72; 0x6d6973657279; 0x6d697373; 0x6d697374616b65;
  0x6d6978; 0x6d69786564; 0x6d697874757265; 0x6d6f62696c65; 0x6d6f64656c; 0x6d6f64696679; 0x6d6f6d; 0x6d6f6d656e74;
  0x6d6f6e69746f72; 0x6d6f6e6b6579; 0x6d6f6e73746572; 0x6d6f6e7468; 0x6d6f6f6e; 0x6d6f72616c; 0x6d6f7265; 0x6d6f726e696e67;
  0x6d6f73717569746f; 0x6d6f74686572; 0x6d6f74696f6e; 0x6d6f746f72; 0x6d6f756e7461696e; 0x6d6f757365; 0x6d6f7665; 0x6d6f766965;
  0x6d756368; 0x6d756666696e; 0x6d756c65; 0x6d756c7469706c79; 0x6d7573636c65; 0x6d757365756d; 0x6d757368726f6f6d; 0x6d75736963;
  0x6d757374; 0x6d757475616c; 0x6d7973656c66; 0x6d797374657279; 0x6d797468; 0x6e61697665; 0x6e616d65; 0x6e61706b696e;
  0x6e6172726f77; 0x6e61737479; 0x6e6174696f6e; 0x6e6174757265; 0x6e656172; 0x6e65636b; 0x6e656564; 0x6e65676174697665;
  0x6e65676c656374; 0x6e656974686572; 0x6e6570686577; 0x6e65727665; 0x6e657374; 0x6e6574; 0x6e6574776f726b; 0x6e65757472616c;
  0x6e65766572; 0x6e657773; 0x6e657874; 0x6e696365; 0x6e69676874; 0x6e6f626c65; 0x6e6f697365; 0x6e6f6d696e6565;
  0x6e6f6f646c65; 0x6e6f726d616c; 0x6e6f727468; 0x6e6f7365; 0x6e6f7461626c65; 0x6e6f7465; 0x6e6f7468696e67; 0x6e6f74696365;
  0x6e6f76656c; 0x6e6f77; 0x6e75636c656172; 0x6e756d626572; 0x6e75727365; 0x6e7574; 0x6f616b; 0x6f626579;
  0x6f626a656374; 0x6f626c696765; 0x6f627363757265; 0x6f627365727665; 0x6f627461696e; 0x6f6276696f7573; 0x6f63637572; 0x6f6365616e;
  0x6f63746f626572; 0x6f646f72; 0x6f6666; 0x6f66666572; 0x6f6666696365; 0x6f6674656e; 0x6f696c; 0x6f6b6179;
  0x6f6c64; 0x6f6c697665; 0x6f6c796d706963; 0x6f6d6974; 0x6f6e6365; 0x6f6e65; 0x6f6e696f6e; 0x6f6e6c696e65;
  0x6f6e6c79; 0x6f70656e; 0x6f70657261; 0x6f70696e696f6e; 0x6f70706f7365; 0x6f7074696f6e; 0x6f72616e6765; 0x6f72626974;
  0x6f726368617264; 0x6f72646572; 0x6f7264696e617279; 0x6f7267616e; 0x6f7269656e74; 0x6f726967696e616c; 0x6f727068616e; 0x6f737472696368;
  0x6f74686572; 0x6f7574646f6f72; 0x6f75746572; 0x6f7574707574; 0x6f757473696465; 0x6f76616c; 0x6f76656e; 0x6f766572;
  0x6f776e; 0x6f776e6572; 0x6f787967656e; 0x6f7973746572; 0x6f7a6f6e65; 0x70616374; 0x706164646c65; 0x70616765;
  0x70616972; 0x70616c616365; 0x70616c6d; 0x70616e6461; 0x70616e656c; 0x70616e6963; 0x70616e74686572; 0x7061706572;
  0x706172616465; 0x706172656e74; 0x7061726b; 0x706172726f74; 0x7061727479; 0x70617373; 0x7061746368; 0x70617468;
  0x70617469656e74; 0x706174726f6c; 0x7061747465726e; 0x7061757365; 0x70617665; 0x7061796d656e74; 0x7065616365; 0x7065616e7574;
  0x70656172; 0x70656173616e74; 0x70656c6963616e; 0x70656e; 0x70656e616c7479; 0x70656e63696c; 0x70656f706c65; 0x706570706572;
  0x70657266656374; 0x7065726d6974; 0x706572736f6e; 0x706574; 0x70686f6e65; 0x70686f746f; 0x706872617365; 0x706879736963616c;
  0x7069616e6f; 0x7069636e6963; 0x70696374757265; 0x7069656365; 0x706967; 0x706967656f6e; 0x70696c6c; 0x70696c6f74;
  0x70696e6b; 0x70696f6e656572; 0x70697065; 0x706973746f6c; 0x7069746368; 0x70697a7a61; 0x706c616365; 0x706c616e6574;
  0x706c6173746963; 0x706c617465; 0x706c6179; 0x706c65617365; 0x706c65646765; 0x706c75636b; 0x706c7567; 0x706c756e6765;
  0x706f656d; 0x706f6574; 0x706f696e74; 0x706f6c6172; 0x706f6c65; 0x706f6c696365; 0x706f6e64; 0x706f6e79;
  0x706f6f6c; 0x706f70756c6172; 0x706f7274696f6e; 0x706f736974696f6e; 0x706f737369626c65; 0x706f7374; 0x706f7461746f; 0x706f7474657279;
  0x706f7665727479; 0x706f77646572; 0x706f776572; 0x7072616374696365; 0x707261697365; 0x70726564696374; 0x707265666572; 0x70726570617265;
  0x70726573656e74; 0x707265747479; 0x70726576656e74; 0x7072696365; 0x7072696465; 0x7072696d617279; 0x7072696e74; 0x7072696f72697479;
  0x707269736f6e; 0x70726976617465; 0x7072697a65; 0x70726f626c656d; 0x70726f63657373; 0x70726f64756365; 0x70726f666974; 0x70726f6772616d;
  0x70726f6a656374; 0x70726f6d6f7465; 0x70726f6f66; 0x70726f7065727479; 0x70726f73706572; 0x70726f74656374; 0x70726f7564; 0x70726f76696465;
  0x7075626c6963; 0x70756464696e67; 0x70756c6c; 0x70756c70; 0x70756c7365; 0x70756d706b696e; 0x70756e6368; 0x707570696c;
  0x7075707079; 0x7075726368617365; 0x707572697479; 0x707572706f7365; 0x7075727365; 0x70757368; 0x707574; 0x70757a7a6c65;
  0x707972616d6964; 0x7175616c697479; 0x7175616e74756d; 0x71756172746572; 0x7175657374696f6e; 0x717569636b; 0x71756974; 0x7175697a;
  0x71756f7465; 0x726162626974; 0x726163636f6f6e; 0x72616365; 0x7261636b; 0x7261646172; 0x726164696f; 0x7261696c;
  0x7261696e; 0x7261697365; 0x72616c6c79; 0x72616d70; 0x72616e6368; 0x72616e646f6d; 0x72616e6765; 0x7261706964;
  0x72617265; 0x72617465; 0x726174686572; 0x726176656e; 0x726177; 0x72617a6f72; 0x7265616479; 0x7265616c;
  0x726561736f6e; 0x726562656c; 0x72656275696c64; 0x726563616c6c; 0x72656365697665; 0x726563697065; 0x7265636f7264; 0x72656379636c65;
  0x726564756365; 0x7265666c656374; 0x7265666f726d; 0x726566757365; 0x726567696f6e; 0x726567726574; 0x726567756c6172; 0x72656a656374;
  0x72656c6178; 0x72656c65617365; 0x72656c696566; 0x72656c79; 0x72656d61696e; 0x72656d656d626572; 0x72656d696e64; 0x72656d6f7665;
  0x72656e646572; 0x72656e6577; 0x72656e74; 0x72656f70656e; 0x726570616972; 0x726570656174; 0x7265706c616365; 0x7265706f7274;
  0x72657175697265; 0x726573637565; 0x726573656d626c65; 0x726573697374; 0x7265736f75726365; 0x726573706f6e7365; 0x726573756c74; 0x726574697265;
  0x72657472656174; 0x72657475726e; 0x7265756e696f6e; 0x72657665616c; 0x726576696577; 0x726577617264; 0x72687974686d; 0x726962;
  0x726962626f6e; 0x72696365; 0x72696368; 0x72696465; 0x7269646765; 0x7269666c65; 0x7269676874; 0x7269676964;
  0x72696e67; 0x72696f74; 0x726970706c65; 0x7269736b; 0x72697475616c; 0x726976616c; 0x7269766572; 0x726f6164;
  0x726f617374; 0x726f626f74; 0x726f62757374; 0x726f636b6574; 0x726f6d616e6365; 0x726f6f66; 0x726f6f6b6965; 0x726f6f6d;
  0x726f7365; 0x726f74617465; 0x726f756768; 0x726f756e64; 0x726f757465; 0x726f79616c; 0x727562626572; 0x72756465;
  0x727567; 0x72756c65; 0x72756e; 0x72756e776179; 0x727572616c; 0x736164; 0x736164646c65; 0x7361646e657373;
  0x73616665; 0x7361696c; 0x73616c6164; 0x73616c6d6f6e; 0x73616c6f6e; 0x73616c74; 0x73616c757465; 0x73616d65;
  0x73616d706c65; 0x73616e64; 0x73617469736679; 0x7361746f736869; 0x7361756365; 0x73617573616765; 0x73617665; 0x736179;
  0x7363616c65; 0x7363616e; 0x7363617265; 0x73636174746572; 0x7363656e65; 0x736368656d65; 0x7363686f6f6c; 0x736369656e6365;
  0x73636973736f7273; 0x73636f7270696f6e; 0x73636f7574; 0x7363726170; 0x73637265656e; 0x736372697074; 0x7363727562; 0x736561;
  0x736561726368; 0x736561736f6e; 0x73656174; 0x7365636f6e64; 0x736563726574; 0x73656374696f6e; 0x7365637572697479; 0x73656564;
  0x7365656b; 0x7365676d656e74; 0x73656c656374; 0x73656c6c; 0x73656d696e6172; 0x73656e696f72; 0x73656e7365; 0x73656e74656e6365;
  0x736572696573; 0x73657276696365; 0x73657373696f6e; 0x736574746c65; 0x7365747570; 0x736576656e; 0x736861646f77; 0x7368616674;
  0x7368616c6c6f77; 0x7368617265; 0x73686564; 0x7368656c6c; 0x73686572696666; 0x736869656c64; 0x7368696674; 0x7368696e65;
  0x73686970; 0x736869766572; 0x73686f636b; 0x73686f65; 0x73686f6f74; 0x73686f70; 0x73686f7274; 0x73686f756c646572;
  0x73686f7665; 0x736872696d70; 0x7368727567; 0x73687566666c65; 0x736879; 0x7369626c696e67; 0x7369636b; 0x73696465;
  0x7369656765; 0x7369676874; 0x7369676e; 0x73696c656e74; 0x73696c6b; 0x73696c6c79; 0x73696c766572; 0x73696d696c6172;
  0x73696d706c65; 0x73696e6365; 0x73696e67; 0x736972656e; 0x736973746572; 0x73697475617465; 0x736978; 0x73697a65;
  0x736b617465; 0x736b65746368; 0x736b69; 0x736b696c6c; 0x736b696e; 0x736b697274; 0x736b756c6c; 0x736c6162;
  0x736c616d; 0x736c656570; 0x736c656e646572; 0x736c696365; 0x736c696465; 0x736c69676874; 0x736c696d; 0x736c6f67616e;
  0x736c6f74; 0x736c6f77; 0x736c757368; 0x736d616c6c; 0x736d617274; 0x736d696c65; 0x736d6f6b65; 0x736d6f6f7468;
  0x736e61636b; 0x736e616b65; 0x736e6170; 0x736e696666; 0x736e6f77; 0x736f6170; 0x736f63636572; 0x736f6369616c;
  0x736f636b; 0x736f6461; 0x736f6674; 0x736f6c6172; 0x736f6c64696572; 0x736f6c6964; 0x736f6c7574696f6e; 0x736f6c7665;
  0x736f6d656f6e65; 0x736f6e67; 0x736f6f6e; 0x736f727279; 0x736f7274; 0x736f756c; 0x736f756e64; 0x736f7570;
  0x736f75726365; 0x736f757468; 0x7370616365; 0x7370617265; 0x7370617469616c; 0x737061776e; 0x737065616b; 0x7370656369616c;
  0x7370656564; 0x7370656c6c; 0x7370656e64; 0x737068657265; 0x7370696365; 0x737069646572; 0x7370696b65; 0x7370696e;
  0x737069726974; 0x73706c6974; 0x73706f696c; 0x73706f6e736f72; 0x73706f6f6e; 0x73706f7274; 0x73706f74; 0x7370726179;
  0x737072656164; 0x737072696e67; 0x737079; 0x737175617265; 0x73717565657a65; 0x737175697272656c; 0x737461626c65; 0x7374616469756d;
  0x7374616666; 0x7374616765; 0x737461697273; 0x7374616d70; 0x7374616e64; 0x7374617274; 0x7374617465; 0x73746179;
  0x737465616b; 0x737465656c; 0x7374656d; 0x73746570; 0x73746572656f; 0x737469636b; 0x7374696c6c; 0x7374696e67;
  0x73746f636b; 0x73746f6d616368; 0x73746f6e65; 0x73746f6f6c; 0x73746f7279; 0x73746f7665; 0x7374726174656779; 0x737472656574;
  0x737472696b65; 0x7374726f6e67; 0x7374727567676c65; 0x73747564656e74; 0x7374756666; 0x7374756d626c65; 0x7374796c65; 0x7375626a656374;
  0x7375626d6974; 0x737562776179; 0x73756363657373; 0x73756368; 0x73756464656e; 0x737566666572; 0x7375676172; 0x73756767657374;
  0x73756974; 0x73756d6d6572; 0x73756e; 0x73756e6e79; 0x73756e736574; 0x7375706572; 0x737570706c79; 0x73757072656d65;
  0x73757265; 0x73757266616365; 0x7375726765; 0x7375727072697365; 0x737572726f756e64; 0x737572766579; 0x73757370656374; 0x7375737461696e;
  0x7377616c6c6f77; 0x7377616d70; 0x73776170; 0x737761726d; 0x7377656172; 0x7377656574; 0x7377696674; 0x7377696d;
  0x7377696e67; 0x737769746368; 0x73776f7264; 0x73796d626f6c; 0x73796d70746f6d; 0x7379727570; 0x73797374656d; 0x7461626c65;
  0x7461636b6c65; 0x746167; 0x7461696c; 0x74616c656e74; 0x74616c6b; 0x74616e6b; 0x74617065; 0x746172676574;
  0x7461736b; 0x7461737465; 0x746174746f6f; 0x74617869; 0x7465616368; 0x7465616d; 0x74656c6c; 0x74656e;
  0x74656e616e74; 0x74656e6e6973; 0x74656e74; 0x7465726d; 0x74657374; 0x74657874; 0x7468616e6b; 0x74686174;
  0x7468656d65; 0x7468656e; 0x7468656f7279; 0x7468657265; 0x74686579; 0x7468696e67; 0x74686973; 0x74686f75676874;
  0x7468726565; 0x746872697665; 0x7468726f77; 0x7468756d62; 0x7468756e646572; 0x7469636b6574; 0x74696465; 0x7469676572;
  0x74696c74; 0x74696d626572; 0x74696d65; 0x74696e79; 0x746970; 0x7469726564; 0x746973737565; 0x7469746c65;
  0x746f617374; 0x746f626163636f; 0x746f646179; 0x746f64646c6572; 0x746f65; 0x746f676574686572; 0x746f696c6574; 0x746f6b656e;
  0x746f6d61746f; 0x746f6d6f72726f77; 0x746f6e65; 0x746f6e677565; 0x746f6e69676874; 0x746f6f6c; 0x746f6f7468; 0x746f70;
  0x746f706963; 0x746f70706c65; 0x746f726368; 0x746f726e61646f; 0x746f72746f697365; 0x746f7373; 0x746f74616c; 0x746f7572697374;
  0x746f77617264; 0x746f776572; 0x746f776e; 0x746f79; 0x747261636b; 0x7472616465; 0x74726166666963; 0x747261676963;
  0x747261696e; 0x7472616e73666572; 0x74726170; 0x7472617368; 0x74726176656c; 0x74726179; 0x7472656174; 0x74726565;
  0x7472656e64; 0x747269616c; 0x7472696265; 0x747269636b; 0x74726967676572; 0x7472696d; 0x74726970; 0x74726f706879;
  0x74726f75626c65; 0x747275636b; 0x74727565; 0x7472756c79; 0x7472756d706574; 0x7472757374; 0x7472757468; 0x747279;
  0x74756265; 0x74756974696f6e; 0x74756d626c65; 0x74756e61; 0x74756e6e656c; 0x7475726b6579; 0x7475726e; 0x747572746c65;
  0x7477656c7665; 0x7477656e7479; 0x7477696365; 0x7477696e; 0x7477697374; 0x74776f; 0x74797065; 0x7479706963616c;
  0x75676c79; 0x756d6272656c6c61; 0x756e61626c65; 0x756e6177617265; 0x756e636c65; 0x756e636f766572; 0x756e646572; 0x756e646f;
  0x756e66616972; 0x756e666f6c64; 0x756e6861707079; 0x756e69666f726d; 0x756e69717565; 0x756e6974; 0x756e697665727365; 0x756e6b6e6f776e;
  0x756e6c6f636b; 0x756e74696c; 0x756e757375616c; 0x756e7665696c; 0x757064617465; 0x75706772616465; 0x7570686f6c64; 0x75706f6e;
  0x7570706572; 0x7570736574; 0x757262616e; 0x75726765; 0x7573616765; 0x757365; 0x75736564; 0x75736566756c;
  0x7573656c657373; 0x757375616c; 0x7574696c697479; 0x766163616e74; 0x76616375756d; 0x7661677565; 0x76616c6964; 0x76616c6c6579;
  0x76616c7665; 0x76616e; 0x76616e697368; 0x7661706f72; 0x766172696f7573; 0x76617374; 0x7661756c74; 0x76656869636c65;
  0x76656c766574; 0x76656e646f72; 0x76656e74757265; 0x76656e7565; 0x76657262; 0x766572696679; 0x76657273696f6e; 0x76657279;
  0x76657373656c; 0x7665746572616e; 0x766961626c65; 0x76696272616e74; 0x766963696f7573; 0x766963746f7279; 0x766964656f; 0x76696577;
  0x76696c6c616765; 0x76696e74616765; 0x76696f6c696e; 0x7669727475616c; 0x7669727573; 0x76697361; 0x7669736974; 0x76697375616c;
  0x766974616c; 0x7669766964; 0x766f63616c; 0x766f696365; 0x766f6964; 0x766f6c63616e6f; 0x766f6c756d65; 0x766f7465;
  0x766f79616765; 0x77616765; 0x7761676f6e; 0x77616974; 0x77616c6b; 0x77616c6c; 0x77616c6e7574; 0x77616e74;
  0x77617266617265; 0x7761726d; 0x77617272696f72; 0x77617368; 0x77617370; 0x7761737465; 0x7761746572; 0x77617665;
  0x776179; 0x7765616c7468; 0x776561706f6e; 0x77656172; 0x77656173656c; 0x77656174686572; 0x776562; 0x77656464696e67;
  0x7765656b656e64; 0x7765697264; 0x77656c636f6d65; 0x77657374; 0x776574; 0x7768616c65; 0x77686174; 0x7768656174;
  0x776865656c; 0x7768656e; 0x7768657265; 0x77686970; 0x77686973706572; 0x77696465; 0x7769647468; 0x77696665;
  0x77696c64; 0x77696c6c; 0x77696e; 0x77696e646f77; 0x77696e65; 0x77696e67; 0x77696e6b; 0x77696e6e6572;
  0x77696e746572; 0x77697265; 0x776973646f6d; 0x77697365; 0x77697368; 0x7769746e657373; 0x776f6c66; 0x776f6d616e;
  0x776f6e646572; 0x776f6f64; 0x776f6f6c; 0x776f7264; 0x776f726b; 0x776f726c64; 0x776f727279; 0x776f727468;
  0x77726170; 0x777265636b; 0x77726573746c65; 0x7772697374; 0x7772697465; 0x77726f6e67; 0x79617264; 0x79656172;
  0x79656c6c6f77; 0x796f75; 0x796f756e67; 0x796f757468; 0x7a65627261; 0x7a65726f; 0x7a6f6e65; 0x7a6f6f].

(** bip39_dictionary.hpp:8282-10331 *)
Definition dict_french : list Z := [
  0x6162616973736572; 0x6162616e646f6e; 0x6162646971756572; 0x616265696c6c65; 0x61626f6c6972; 0x61626f72646572; 0x61626f75746972; 0x61626f796572;
  0x61627261736966; 0x6162726575766572; 0x61627269746572; 0x6162726f676572; 0x616272757074; 0x616273656e6365; 0x6162736f6c75; 0x61627375726465;
  0x616275736966; 0x6162797373616c; 0x6163616465cc816d6965; 0x6163616a6f75; 0x6163617269656e; 0x61636361626c6572; 0x6163636570746572; 0x6163636c616d6572;
  0x6163636f6c616465; 0x616363726f636865; 0x61636375736572; 0x616365726265; 0x6163686174; 0x61636865746572; 0x61636964756c6572; 0x6163696572;
  0x61636f6d707465; 0x6163717565cc81726972; 0x6163726f6e796d65; 0x616374657572; 0x6163746966; 0x61637475656c; 0x616465707465; 0x616465cc8171756174;
  0x61646865cc81736966; 0x61646a6563746966; 0x61646a75676572; 0x61646d6574747265; 0x61646d69726572; 0x61646f70746572; 0x61646f726572; 0x61646f75636972;
  0x61647265737365; 0x6164726f6974; 0x6164756c7465; 0x61647665726265; 0x6165cc81726572; 0x6165cc81726f6e6566; 0x61666661697265; 0x6166666563746572;
  0x61666669636865; 0x61666672657578; 0x61666675626c6572; 0x616761636572; 0x6167656e636572; 0x6167696c65; 0x616769746572; 0x61677261666572;
  0x61677265cc8161626c65; 0x616772756d65; 0x6169646572; 0x61696775696c6c65; 0x61696c696572; 0x61696d61626c65; 0x616973616e6365; 0x616a6f75746572;
  0x616a7573746572; 0x616c61726d6572; 0x616c6368696d6965; 0x616c65727465; 0x616c6765cc80627265; 0x616c677565; 0x616c6965cc816e6572; 0x616c696d656e74;
  0x616c6c65cc81676572; 0x616c6c69616765; 0x616c6c6f756572; 0x616c6c756d6572; 0x616c6f7572646972; 0x616c70616761; 0x616c7465737365; 0x616c7665cc816f6c65;
  0x616d6174657572; 0x616d62696775; 0x616d627265; 0x616d65cc816e61676572; 0x616d657274756d65; 0x616d69646f6e; 0x616d6972616c; 0x616d6f72636572;
  0x616d6f7572; 0x616d6f7669626c65; 0x616d706869626965; 0x616d706c657572; 0x616d7573616e74; 0x616e616c797365; 0x616e6170686f7265; 0x616e617263686965;
  0x616e61746f6d6965; 0x616e6369656e; 0x616e65cc81616e746972; 0x616e676c65; 0x616e676f69737365; 0x616e67756c657578; 0x616e696d616c; 0x616e6e65786572;
  0x616e6e6f6e6365; 0x616e6e75656c; 0x616e6f64696e; 0x616e6f6d616c6965; 0x616e6f6e796d65; 0x616e6f726d616c; 0x616e74656e6e65; 0x616e7469646f7465;
  0x616e7869657578; 0x61706169736572; 0x617065cc817269746966; 0x61706c616e6972; 0x61706f6c6f676965; 0x617070617265696c; 0x617070656c6572; 0x6170706f72746572;
  0x61707075796572; 0x617175617269756d; 0x61717565647563; 0x61726269747265; 0x61726275737465; 0x617264657572; 0x6172646f697365; 0x617267656e74;
  0x61726c657175696e; 0x61726d6174757265; 0x61726d656d656e74; 0x61726d6f697265; 0x61726d757265; 0x617270656e746572; 0x6172726163686572; 0x61727269766572;
  0x6172726f736572; 0x617273656e6963; 0x61727465cc817269656c; 0x61727469636c65; 0x617370656374; 0x61737068616c7465; 0x61737069726572; 0x617373617574;
  0x6173736572766972; 0x6173736965747465; 0x6173736f63696572; 0x61737375726572; 0x61737469636f74; 0x6173747265; 0x617374756365; 0x6174656c696572;
  0x61746f6d65; 0x61747269756d; 0x6174726f6365; 0x61747461717565; 0x617474656e746966; 0x61747469726572; 0x6174747261706572; 0x61756261696e65;
  0x61756265726765; 0x617564616365; 0x61756469626c65; 0x61756775726572; 0x6175726f7265; 0x6175746f6d6e65; 0x6175747275636865; 0x6176616c6572;
  0x6176616e636572; 0x61766172696365; 0x6176656e6972; 0x617665727365; 0x61766575676c65; 0x6176696174657572; 0x6176696465; 0x6176696f6e;
  0x617669736572; 0x61766f696e65; 0x61766f756572; 0x617672696c; 0x617869616c; 0x6178696f6d65; 0x6261646765; 0x6261666f756572;
  0x626167616765; 0x6261677565747465; 0x626169676e616465; 0x62616c616e636572; 0x62616c636f6e; 0x62616c65696e65; 0x62616c6973616765; 0x62616d62696e;
  0x62616e6361697265; 0x62616e64616765; 0x62616e6c69657565; 0x62616e6e6965cc807265; 0x62616e7175696572; 0x62617262696572; 0x626172696c; 0x6261726f6e;
  0x626172717565; 0x62617272616765; 0x62617373696e; 0x62617374696f6e; 0x62617461696c6c65; 0x626174656175; 0x6261747465726965; 0x6261756472696572;
  0x6261766172646572; 0x62656c65747465; 0x6265cc816c696572; 0x62656c6f7465; 0x6265cc816e65cc8166696365; 0x62657263656175; 0x626572676572; 0x6265726c696e65;
  0x6265726d756461; 0x626573616365; 0x6265736f676e65; 0x6265cc817461696c; 0x626575727265; 0x62696265726f6e; 0x62696379636c65; 0x626964756c65;
  0x62696a6f75; 0x62696c616e; 0x62696c696e677565; 0x62696c6c617264; 0x62696e61697265; 0x62696f6c6f676965; 0x62696f70736965; 0x62696f74797065;
  0x62697363756974; 0x6269736f6e; 0x626973746f757269; 0x626974756d65; 0x62697a61727265; 0x626c6166617264; 0x626c61677565; 0x626c616e63686972;
  0x626c657373616e74; 0x626c696e646572; 0x626c6f6e64; 0x626c6f71756572; 0x626c6f75736f6e; 0x626f62617264; 0x626f62696e65; 0x626f697265;
  0x626f69736572; 0x626f6c696465; 0x626f6e626f6e; 0x626f6e646972; 0x626f6e68657572; 0x626f6e6966696572; 0x626f6e7573; 0x626f7264757265;
  0x626f726e65; 0x626f747465; 0x626f75636c65; 0x626f75657578; 0x626f75676965; 0x626f756c6f6e; 0x626f757175696e; 0x626f75727365;
  0x626f7573736f6c65; 0x626f757469717565; 0x626f78657572; 0x6272616e636865; 0x62726173696572; 0x6272617665; 0x627265626973; 0x627265cc80636865;
  0x6272657576616765; 0x627269636f6c6572; 0x62726967616465; 0x6272696c6c616e74; 0x6272696f636865; 0x627269717565; 0x62726f6368757265; 0x62726f646572;
  0x62726f6e7a6572; 0x62726f75737365; 0x62726f79657572; 0x6272756d65; 0x62727573717565; 0x62727574616c; 0x62727579616e74; 0x627566666c65;
  0x62756973736f6e; 0x62756c6c6574696e; 0x627572656175; 0x627572696e; 0x62757374696572; 0x627574696e6572; 0x6275746f6972; 0x62757661626c65;
  0x62757665747465; 0x636162616e6f6e; 0x636162696e65; 0x6361636865747465; 0x636164656175; 0x6361647265; 0x63616665cc81696e65; 0x6361696c6c6f75;
  0x63616973736f6e; 0x63616c63756c6572; 0x63616c6570696e; 0x63616c69627265; 0x63616c6d6572; 0x63616c6f6d6e6965; 0x63616c7661697265; 0x63616d6172616465;
  0x63616d65cc817261; 0x63616d696f6e; 0x63616d7061676e65; 0x63616e616c; 0x63616e65746f6e; 0x63616e6f6e; 0x63616e74696e65; 0x63616e756c6172;
  0x63617061626c65; 0x6361706f72616c; 0x63617072696365; 0x63617073756c65; 0x636170746572; 0x63617075636865; 0x6361726162696e65; 0x636172626f6e65;
  0x6361726573736572; 0x63617269626f75; 0x6361726e616765; 0x6361726f747465; 0x63617272656175; 0x636172746f6e; 0x63617363616465; 0x636173696572;
  0x636173717565; 0x63617373757265; 0x636175736572; 0x63617574696f6e; 0x636176616c696572; 0x63617665726e65; 0x636176696172; 0x6365cc8164696c6c65;
  0x6365696e74757265; 0x6365cc816c65737465; 0x63656c6c756c65; 0x63656e6472696572; 0x63656e7375726572; 0x63656e7472616c; 0x636572636c65; 0x6365cc817265cc816272616c;
  0x636572697365; 0x6365726e6572; 0x63657276656175; 0x636573736572; 0x6368616772696e; 0x636861697365; 0x6368616c657572; 0x6368616d627265;
  0x6368616e6365; 0x6368617069747265; 0x63686172626f6e; 0x6368617373657572; 0x636861746f6e; 0x6368617573736f6e; 0x6368617669726572; 0x6368656d697365;
  0x6368656e696c6c65; 0x636865cc817175696572; 0x6368657263686572; 0x63686576616c; 0x636869656e; 0x63686966667265; 0x636869676e6f6e; 0x6368696d65cc807265;
  0x6368696f74; 0x63686c6f72757265; 0x63686f636f6c6174; 0x63686f69736972; 0x63686f7365; 0x63686f7565747465; 0x6368726f6d65; 0x6368757465;
  0x636967617265; 0x6369676f676e65; 0x63696d656e746572; 0x63696e65cc816d61; 0x63696e74726572; 0x63697263756c6572; 0x6369726572; 0x636972717565;
  0x63697465726e65; 0x6369746f79656e; 0x636974726f6e; 0x636976696c; 0x636c6169726f6e; 0x636c616d657572; 0x636c6171756572; 0x636c61737365;
  0x636c6176696572; 0x636c69656e74; 0x636c69676e6572; 0x636c696d6174; 0x636c6976616765; 0x636c6f636865; 0x636c6f6e616765; 0x636c6f706f727465;
  0x636f62616c74; 0x636f627261; 0x636f6361737365; 0x636f636f74696572; 0x636f646572; 0x636f646966696572; 0x636f66667265; 0x636f676e6572;
  0x636f6865cc8173696f6e; 0x636f6966666572; 0x636f696e636572; 0x636f6c65cc807265; 0x636f6c69627269; 0x636f6c6c696e65; 0x636f6c6d61746572; 0x636f6c6f6e656c;
  0x636f6d626174; 0x636f6d65cc81646965; 0x636f6d6d616e6465; 0x636f6d70616374; 0x636f6e63657274; 0x636f6e6475697265; 0x636f6e66696572; 0x636f6e67656c6572;
  0x636f6e6e6f746572; 0x636f6e736f6e6e65; 0x636f6e74616374; 0x636f6e76657865; 0x636f7061696e; 0x636f706965; 0x636f7261696c; 0x636f7262656175;
  0x636f7264616765; 0x636f726e69636865; 0x636f72707573; 0x636f7272656374; 0x636f727465cc806765; 0x636f736d69717565; 0x636f7374756d65; 0x636f746f6e;
  0x636f756465; 0x636f7570757265; 0x636f7572616765; 0x636f7574656175; 0x636f7576726972; 0x636f796f7465; 0x6372616265; 0x637261696e7465;
  0x63726176617465; 0x637261796f6e; 0x637265cc816174757265; 0x637265cc816469746572; 0x637265cc816d657578; 0x63726575736572; 0x6372657665747465; 0x637269626c6572;
  0x6372696572; 0x6372697374616c; 0x6372697465cc807265; 0x63726f697265; 0x63726f71756572; 0x63726f74616c65; 0x6372756369616c; 0x637275656c;
  0x63727970746572; 0x63756269717565; 0x637565696c6c6972; 0x6375696c6c65cc807265; 0x63756973696e65; 0x637569767265; 0x63756c6d696e6572; 0x63756c7469766572;
  0x63756d756c6572; 0x637570696465; 0x63757261746966; 0x63757273657572; 0x6379616e757265; 0x6379636c65; 0x63796c696e647265; 0x63796e69717565;
  0x646169676e6572; 0x64616d696572; 0x64616e676572; 0x64616e73657572; 0x6461757068696e; 0x6465cc81626174747265; 0x6465cc816269746572; 0x6465cc81626f72646572;
  0x6465cc81627269646572; 0x6465cc81627574616e74; 0x6465cc8163616c6572; 0x6465cc8163656d627265; 0x6465cc81636869726572; 0x6465cc816369646572; 0x6465cc81636c61726572; 0x6465cc81636f726572;
  0x6465cc816372697265; 0x6465cc816375706c6572; 0x6465cc8164616c65; 0x6465cc81647563746966; 0x6465cc8165737365; 0x6465cc8166656e736966; 0x6465cc8166696c6572; 0x6465cc81667261796572;
  0x6465cc816761676572; 0x6465cc81676976726572; 0x6465cc81676c75746972; 0x6465cc81677261666572; 0x6465cc816a65756e6572; 0x6465cc816c696365; 0x6465cc816c6f676572; 0x64656d616e646572;
  0x64656d6575726572; 0x6465cc816d6f6c6972; 0x6465cc816e6963686572; 0x6465cc816e6f756572; 0x64656e74656c6c65; 0x6465cc816e75646572; 0x6465cc8170617274; 0x6465cc8170656e736572;
  0x6465cc81706861736572; 0x6465cc81706c61636572; 0x6465cc81706f736572; 0x6465cc8172616e676572; 0x6465cc81726f626572; 0x6465cc81736173747265; 0x64657363656e7465; 0x6465cc8173657274;
  0x6465cc817369676e6572; 0x6465cc81736f6265cc816972; 0x64657373696e6572; 0x6465737472696572; 0x6465cc81746163686572; 0x6465cc81746573746572; 0x6465cc81746f75726572; 0x6465cc81747265737365;
  0x646576616e636572; 0x646576656e6972; 0x646576696e6572; 0x6465766f6972; 0x646961626c65; 0x6469616c6f677565; 0x6469616d616e74; 0x646963746572;
  0x6469666665cc81726572; 0x64696765cc81726572; 0x6469676974616c; 0x6469676e65; 0x64696c756572; 0x64696d616e636865; 0x64696d696e756572; 0x64696f78796465;
  0x6469726563746966; 0x64697269676572; 0x6469736375746572; 0x646973706f736572; 0x6469737369706572; 0x64697374616e6365; 0x6469766572746972; 0x64697669736572;
  0x646f63696c65; 0x646f6374657572; 0x646f676d65; 0x646f696774; 0x646f6d61696e65; 0x646f6d6963696c65; 0x646f6d70746572; 0x646f6e6174657572;
  0x646f6e6a6f6e; 0x646f6e6e6572; 0x646f70616d696e65; 0x646f72746f6972; 0x646f72757265; 0x646f73616765; 0x646f73657572; 0x646f7373696572;
  0x646f746174696f6e; 0x646f75616e696572; 0x646f75626c65; 0x646f7563657572; 0x646f75746572; 0x646f79656e; 0x647261676f6e; 0x647261706572;
  0x64726573736572; 0x64726962626c6572; 0x64726f6974757265; 0x64757065726965; 0x6475706c657865; 0x64757261626c65; 0x647572636972; 0x64796e6173746965;
  0x65cc81626c6f756972; 0x65cc81636172746572; 0x65cc81636861727065; 0x65cc816368656c6c65; 0x65cc81636c6169726572; 0x65cc81636c69707365; 0x65cc81636c6f7265; 0x65cc81636c757365;
  0x65cc81636f6c65; 0x65cc81636f6e6f6d6965; 0x65cc81636f726365; 0x65cc81636f75746572; 0x65cc81637261736572; 0x65cc81637265cc816d6572; 0x65cc816372697661696e; 0x65cc8163726f75;
  0x65cc8163756d65; 0x65cc816375726575696c; 0x65cc81646966696572; 0x65cc81647571756572; 0x65666661636572; 0x6566666563746966; 0x65666669676965; 0x6566666f7274;
  0x6566667261796572; 0x6566667573696f6e; 0x65cc8167616c69736572; 0x65cc816761726572; 0x65cc816a6563746572; 0x65cc816c61626f726572; 0x65cc816c6172676972; 0x65cc816c656374726f6e;
  0x65cc816c65cc8167616e74; 0x65cc816c65cc817068616e74; 0x65cc816c65cc807665; 0x65cc816c696769626c65; 0x65cc816c697469736d65; 0x65cc816c6f6765; 0x65cc816c756369646572; 0x65cc816c75646572;
  0x656d62616c6c6572; 0x656d62656c6c6972; 0x656d6272796f6e; 0x65cc816d657261756465; 0x65cc816d697373696f6e; 0x656d6d656e6572; 0x65cc816d6f74696f6e; 0x65cc816d6f75766f6972;
  0x656d706572657572; 0x656d706c6f796572; 0x656d706f72746572; 0x656d7072697365; 0x65cc816d756c73696f6e; 0x656e636164726572; 0x656e636865cc807265; 0x656e636c617665;
  0x656e636f636865; 0x656e646967756572; 0x656e646f73736572; 0x656e64726f6974; 0x656e6475697265; 0x65cc816e6572676965; 0x656e66616e6365; 0x656e6665726d6572;
  0x656e666f756972; 0x656e6761676572; 0x656e67696e; 0x656e676c6f626572; 0x65cc816e69676d65; 0x656e6a616d626572; 0x656e6a6575; 0x656e6c65766572;
  0x656e6e656d69; 0x656e6e7579657578; 0x656e726963686972; 0x656e726f62616765; 0x656e736569676e65; 0x656e746173736572; 0x656e74656e647265; 0x656e74696572;
  0x656e746f75726572; 0x656e747261766572; 0x65cc816e756d65cc81726572; 0x656e7661686972; 0x656e766961626c65; 0x656e766f796572; 0x656e7a796d65; 0x65cc816f6c69656e;
  0x65cc8170616973736972; 0x65cc81706172676e65; 0x65cc81706174616e74; 0x65cc817061756c65; 0x65cc8170696365726965; 0x65cc8170696465cc816d6965; 0x65cc8170696572; 0x65cc8170696c6f677565;
  0x65cc8170696e65; 0x65cc817069736f6465; 0x65cc8170697461706865; 0x65cc81706f717565; 0x65cc81707265757665; 0x65cc8170726f75766572; 0x65cc8170756973616e74; 0x65cc81717565727265;
  0x65cc817175697065; 0x65cc817269676572; 0x65cc81726f73696f6e; 0x657272657572; 0x65cc8172757074696f6e; 0x657363616c696572; 0x65737061646f6e; 0x65737065cc806365;
  0x6573706965cc80676c65; 0x6573706f6972; 0x657370726974; 0x6573717569766572; 0x65737361796572; 0x657373656e6365; 0x657373696575; 0x6573736f726572;
  0x657374696d65; 0x6573746f6d6163; 0x65737472616465; 0x65cc8174616765cc807265; 0x65cc8174616c6572; 0x65cc8174616e636865; 0x65cc8174617469717565; 0x65cc817465696e647265;
  0x65cc8174656e646f6972; 0x65cc817465726e656c; 0x65cc817468616e6f6c; 0x65cc81746869717565; 0x6574686e6965; 0x65cc817469726572; 0x65cc81746f66666572; 0x65cc81746f696c65;
  0x65cc81746f6e6e616e74; 0x65cc81746f7572646972; 0x65cc817472616e6765; 0x65cc8174726f6974; 0x65cc8174756465; 0x657570686f726965; 0x65cc8176616c756572; 0x65cc81766173696f6e;
  0x65cc8176656e7461696c; 0x65cc81766964656e6365; 0x65cc817669746572; 0x65cc81766f6c75746966; 0x65cc81766f71756572; 0x6578616374; 0x6578616765cc81726572; 0x65786175636572;
  0x657863656c6c6572; 0x6578636974616e74; 0x6578636c75736966; 0x657863757365; 0x657865cc816375746572; 0x6578656d706c65; 0x65786572636572; 0x657868616c6572;
  0x6578686f72746572; 0x65786967656e6365; 0x6578696c6572; 0x65786973746572; 0x65786f7469717565; 0x65787065cc8164696572; 0x6578706c6f726572; 0x6578706f736572;
  0x65787072696d6572; 0x657871756973; 0x657874656e736966; 0x6578747261697265; 0x6578756c746572; 0x6661626c65; 0x666162756c657578; 0x66616365747465;
  0x666163696c65; 0x66616374757265; 0x666169626c6972; 0x66616c61697365; 0x66616d657578; 0x66616d696c6c65; 0x66617263657572; 0x66617266656c75;
  0x666172696e65; 0x6661726f75636865; 0x66617363696e6572; 0x666174616c; 0x66617469677565; 0x666175636f6e; 0x666175746966; 0x666176657572;
  0x6661766f7269; 0x6665cc816272696c65; 0x6665cc81636f6e646572; 0x6665cc816465cc81726572; 0x6665cc816c696e; 0x66656d6d65; 0x6665cc816d7572; 0x66656e646f6972;
  0x6665cc816f64616c; 0x6665726d6572; 0x6665cc81726f6365; 0x66657276657572; 0x666573746976616c; 0x666575696c6c65; 0x666575747265; 0x6665cc817672696572;
  0x66696173636f; 0x666963656c6572; 0x666963746966; 0x66696465cc806c65; 0x666967757265; 0x66696c6174757265; 0x66696c6574616765; 0x66696c6965cc807265;
  0x66696c6c65756c; 0x66696c6d6572; 0x66696c6f75; 0x66696c74726572; 0x66696e616e636572; 0x66696e6972; 0x66696f6c65; 0x6669726d65;
  0x66697373757265; 0x6669786572; 0x666c6169726572; 0x666c616d6d65; 0x666c6173717565; 0x666c617474657572; 0x666c65cc816175; 0x666c65cc80636865;
  0x666c657572; 0x666c6578696f6e; 0x666c6f636f6e; 0x666c6f7265; 0x666c756374756572; 0x666c75696465; 0x666c757669616c; 0x666f6c6965;
  0x666f6e6465726965; 0x666f6e6769626c65; 0x666f6e7461696e65; 0x666f72636572; 0x666f726765726f6e; 0x666f726d756c6572; 0x666f7274756e65; 0x666f7373696c65;
  0x666f75647265; 0x666f756765cc807265; 0x666f75696c6c6572; 0x666f756c757265; 0x666f75726d69; 0x66726167696c65; 0x667261697365; 0x6672616e63686972;
  0x66726170706572; 0x66726179657572; 0x667265cc8167617465; 0x667265696e6572; 0x6672656c6f6e; 0x667265cc816d6972; 0x667265cc816e65cc81736965; 0x667265cc807265;
  0x66726961626c65; 0x6672696374696f6e; 0x66726973736f6e; 0x667269766f6c65; 0x66726f6964; 0x66726f6d616765; 0x66726f6e74616c; 0x66726f74746572;
  0x6672756974; 0x66756769746966; 0x6675697465; 0x667572657572; 0x66757269657578; 0x667572746966; 0x667573696f6e; 0x6675747572;
  0x6761676e6572; 0x67616c61786965; 0x67616c65726965; 0x67616d6261646572; 0x676172616e746972; 0x6761726469656e; 0x6761726e6972; 0x6761727269677565;
  0x67617a656c6c65; 0x67617a6f6e; 0x6765cc81616e74; 0x6765cc816c6174696e65; 0x6765cc816c756c65; 0x67656e6461726d65; 0x6765cc816e65cc8172616c; 0x6765cc816e6965;
  0x67656e6f75; 0x67656e74696c; 0x6765cc816f6c6f676965; 0x6765cc816f6d65cc80747265; 0x6765cc8172616e69756d; 0x6765726d65; 0x6765737475656c; 0x676579736572;
  0x676962696572; 0x6769636c6572; 0x676972616665; 0x6769767265; 0x676c616365; 0x676c61697665; 0x676c6973736572; 0x676c6f6265;
  0x676c6f697265; 0x676c6f7269657578; 0x676f6c66657572; 0x676f6d6d65; 0x676f6e666c6572; 0x676f726765; 0x676f72696c6c65; 0x676f7564726f6e;
  0x676f7566667265; 0x676f756c6f74; 0x676f7570696c6c65; 0x676f75726d616e64; 0x676f75747465; 0x6772616475656c; 0x6772616666697469; 0x677261696e65;
  0x6772616e64; 0x6772617070696e; 0x67726174756974; 0x677261766972; 0x6772656e6174; 0x6772696666757265; 0x6772696c6c6572; 0x6772696d706572;
  0x67726f676e6572; 0x67726f6e646572; 0x67726f747465; 0x67726f757065; 0x677275676572; 0x67727574696572; 0x6772757965cc807265; 0x677565cc8170617264;
  0x6775657272696572; 0x6775696465; 0x6775696d61757665; 0x67756974617265; 0x6775737461746966; 0x67796d6e61737465; 0x6779726f73746174; 0x6861626974756465;
  0x686163686f6972; 0x68616c7465; 0x68616d656175; 0x68616e676172; 0x68616e6e65746f6e; 0x68617269636f74; 0x6861726d6f6e6965; 0x686172706f6e;
  0x686173617264; 0x6865cc816c69756d; 0x6865cc816d61746f6d65; 0x6865726265; 0x6865cc81726973736f6e; 0x6865726d696e65; 0x6865cc81726f6e; 0x6865cc817369746572;
  0x68657572657578; 0x68696265726e6572; 0x6869626f75; 0x68696c6172616e74; 0x686973746f697265; 0x6869766572; 0x686f6d617264; 0x686f6d6d616765;
  0x686f6d6f6765cc806e65; 0x686f6e6e657572; 0x686f6e6f726572; 0x686f6e74657578; 0x686f726465; 0x686f72697a6f6e; 0x686f726c6f6765; 0x686f726d6f6e65;
  0x686f727269626c65; 0x686f756c657578; 0x686f75737365; 0x6875626c6f74; 0x6875696c657578; 0x68756d61696e; 0x68756d626c65; 0x68756d696465;
  0x68756d6f7572; 0x6875726c6572; 0x687964726f6d656c; 0x6879676965cc806e65; 0x68796d6e65; 0x6879706e6f7365; 0x6964796c6c65; 0x69676e6f726572;
  0x696775616e65; 0x696c6c6963697465; 0x696c6c7573696f6e; 0x696d616765; 0x696d6269626572; 0x696d69746572; 0x696d6d656e7365; 0x696d6d6f62696c65;
  0x696d6d7561626c65; 0x696d70616374; 0x696d7065cc817269616c; 0x696d706c6f726572; 0x696d706f736572; 0x696d7072696d6572; 0x696d7075746572; 0x696e6361726e6572;
  0x696e63656e646965; 0x696e636964656e74; 0x696e636c696e6572; 0x696e636f6c6f7265; 0x696e6465786572; 0x696e64696365; 0x696e647563746966; 0x696e65cc81646974;
  0x696e6570746965; 0x696e6578616374; 0x696e66696e69; 0x696e666c69676572; 0x696e666f726d6572; 0x696e667573696f6e; 0x696e6765cc81726572; 0x696e68616c6572;
  0x696e6869626572; 0x696e6a6563746572; 0x696e6a757265; 0x696e6e6f63656e74; 0x696e6f63756c6572; 0x696e6f6e646572; 0x696e736372697265; 0x696e7365637465;
  0x696e7369676e65; 0x696e736f6c697465; 0x696e737069726572; 0x696e7374696e6374; 0x696e73756c746572; 0x696e74616374; 0x696e74656e7365; 0x696e74696d65;
  0x696e747269677565; 0x696e747569746966; 0x696e7574696c65; 0x696e766173696f6e; 0x696e76656e746572; 0x696e7669746572; 0x696e766f71756572; 0x69726f6e69717565;
  0x6972726164696572; 0x69727265cc81656c; 0x69727269746572; 0x69736f6c6572; 0x69766f697265; 0x69767265737365; 0x6a6167756172; 0x6a61696c6c6972;
  0x6a616d6265; 0x6a616e76696572; 0x6a617264696e; 0x6a6175676572; 0x6a61756e65; 0x6a6176656c6f74; 0x6a657461626c65; 0x6a65746f6e;
  0x6a65756469; 0x6a65756e65737365; 0x6a6f696e647265; 0x6a6f6e63686572; 0x6a6f6e676c6572; 0x6a6f75657572; 0x6a6f756973736966; 0x6a6f75726e616c;
  0x6a6f7669616c; 0x6a6f796175; 0x6a6f79657578; 0x6a7562696c6572; 0x6a7567656d656e74; 0x6a756e696f72; 0x6a75706f6e; 0x6a757269737465;
  0x6a757374696365; 0x6a7574657578; 0x6a757665cc816e696c65; 0x6b6179616b; 0x6b696d6f6e6f; 0x6b696f73717565; 0x6c6162656c; 0x6c616269616c;
  0x6c61626f75726572; 0x6c616365cc81726572; 0x6c6163746f7365; 0x6c6167756e65; 0x6c61696e65; 0x6c616973736572; 0x6c616974696572; 0x6c616d62656175;
  0x6c616d656c6c65; 0x6c616d7065; 0x6c616e63657572; 0x6c616e67616765; 0x6c616e7465726e65; 0x6c6170696e; 0x6c617267657572; 0x6c61726d65;
  0x6c617572696572; 0x6c617661626f; 0x6c61766f6972; 0x6c656374757265; 0x6c65cc8167616c; 0x6c65cc81676572; 0x6c65cc8167756d65; 0x6c657373697665;
  0x6c6574747265; 0x6c6576696572; 0x6c657869717565; 0x6c65cc817a617264; 0x6c6961737365; 0x6c696265cc81726572; 0x6c69627265; 0x6c6963656e6365;
  0x6c69636f726e65; 0x6c6965cc806765; 0x6c6965cc80767265; 0x6c69676174757265; 0x6c69676f746572; 0x6c69677565; 0x6c696d6572; 0x6c696d697465;
  0x6c696d6f6e616465; 0x6c696d70696465; 0x6c696e65cc8161697265; 0x6c696e676f74; 0x6c696f6e63656175; 0x6c697175696465; 0x6c69736965cc807265; 0x6c6973746572;
  0x6c69746869756d; 0x6c6974696765; 0x6c6974746f72616c; 0x6c697672657572; 0x6c6f6769717565; 0x6c6f696e7461696e; 0x6c6f69736972; 0x6c6f6d62726963;
  0x6c6f7465726965; 0x6c6f756572; 0x6c6f757264; 0x6c6f75747265; 0x6c6f757665; 0x6c6f79616c; 0x6c75626965; 0x6c7563696465;
  0x6c75637261746966; 0x6c75657572; 0x6c756775627265; 0x6c756973616e74; 0x6c756d6965cc807265; 0x6c756e61697265; 0x6c756e6469; 0x6c75726f6e;
  0x6c7574746572; 0x6c757875657578; 0x6d616368696e65; 0x6d61676173696e; 0x6d6167656e7461; 0x6d616769717565; 0x6d6169677265; 0x6d61696c6c6f6e;
  0x6d61696e7469656e; 0x6d6169726965; 0x6d6169736f6e; 0x6d616a6f726572; 0x6d616c61786572; 0x6d616c65cc8166696365; 0x6d616c68657572; 0x6d616c696365;
  0x6d616c6c65747465; 0x6d616d6d6f757468; 0x6d616e6461746572; 0x6d616e6961626c65; 0x6d616e7175616e74; 0x6d616e74656175; 0x6d616e75656c; 0x6d61726174686f6e;
  0x6d6172627265; 0x6d61726368616e64; 0x6d61726469; 0x6d61726974696d65; 0x6d61727175657572; 0x6d6172726f6e; 0x6d617274656c6572; 0x6d6173636f747465;
  0x6d6173736966; 0x6d617465cc817269656c; 0x6d61746965cc807265; 0x6d61747261717565; 0x6d617564697265; 0x6d61757373616465; 0x6d61757665; 0x6d6178696d616c;
  0x6d65cc816368616e74; 0x6d65cc81636f6e6e75; 0x6d65cc816461696c6c65; 0x6d65cc81646563696e; 0x6d65cc816469746572; 0x6d65cc8164757365; 0x6d65696c6c657572; 0x6d65cc816c616e6765;
  0x6d65cc816c6f646965; 0x6d656d627265; 0x6d65cc816d6f697265; 0x6d656e61636572; 0x6d656e6572; 0x6d656e686972; 0x6d656e736f6e6765; 0x6d656e746f72;
  0x6d65726372656469; 0x6d65cc8172697465; 0x6d65726c65; 0x6d65737361676572; 0x6d6573757265; 0x6d65cc8174616c; 0x6d65cc817465cc816f7265; 0x6d65cc8174686f6465;
  0x6d65cc8174696572; 0x6d6575626c65; 0x6d6961756c6572; 0x6d6963726f6265; 0x6d6965747465; 0x6d69676e6f6e; 0x6d6967726572; 0x6d696c696575;
  0x6d696c6c696f6e; 0x6d696d69717565; 0x6d696e6365; 0x6d696e65cc8172616c; 0x6d696e696d616c; 0x6d696e6f726572; 0x6d696e757465; 0x6d697261636c65;
  0x6d69726f69746572; 0x6d697373696c65; 0x6d69787465; 0x6d6f62696c65; 0x6d6f6465726e65; 0x6d6f656c6c657578; 0x6d6f6e6469616c; 0x6d6f6e6974657572;
  0x6d6f6e6e616965; 0x6d6f6e6f746f6e65; 0x6d6f6e73747265; 0x6d6f6e7461676e65; 0x6d6f6e756d656e74; 0x6d6f7175657572; 0x6d6f7263656175; 0x6d6f7273757265;
  0x6d6f7274696572; 0x6d6f74657572; 0x6d6f746966; 0x6d6f75636865; 0x6d6f75666c65; 0x6d6f756c696e; 0x6d6f7573736f6e; 0x6d6f75746f6e;
  0x6d6f7576616e74; 0x6d756c7469706c65; 0x6d756e6974696f6e; 0x6d757261696c6c65; 0x6d757265cc806e65; 0x6d75726d757265; 0x6d7573636c65; 0x6d757365cc81756d;
  0x6d7573696369656e; 0x6d75746174696f6e; 0x6d75746572; 0x6d757475656c; 0x6d797269616465; 0x6d797274696c6c65; 0x6d79737465cc807265; 0x6d79746869717565;
  0x6e6167657572; 0x6e61707065; 0x6e617271756f6973; 0x6e6172726572; 0x6e61746174696f6e; 0x6e6174696f6e; 0x6e6174757265; 0x6e61756672616765;
  0x6e61757469717565; 0x6e6176697265; 0x6e65cc8162756c657578; 0x6e6563746172; 0x6e65cc816661737465; 0x6e65cc81676174696f6e; 0x6e65cc81676c69676572; 0x6e65cc81676f63696572;
  0x6e65696765; 0x6e657276657578; 0x6e6574746f796572; 0x6e6575726f6e65; 0x6e657574726f6e; 0x6e65766575; 0x6e69636865; 0x6e69636b656c;
  0x6e697472617465; 0x6e6976656175; 0x6e6f626c65; 0x6e6f636966; 0x6e6f637475726e65; 0x6e6f697263657572; 0x6e6f697365747465; 0x6e6f6d616465;
  0x6e6f6d6272657578; 0x6e6f6d6d6572; 0x6e6f726d61746966; 0x6e6f7461626c65; 0x6e6f746966696572; 0x6e6f746f697265; 0x6e6f7572726972; 0x6e6f7576656175;
  0x6e6f766174657572; 0x6e6f76656d627265; 0x6e6f76696365; 0x6e75616765; 0x6e75616e636572; 0x6e75697265; 0x6e75697369626c65; 0x6e756d65cc81726f;
  0x6e75707469616c; 0x6e75717565; 0x6e75747269746966; 0x6f6265cc816972; 0x6f626a6563746966; 0x6f626c69676572; 0x6f6273637572; 0x6f62736572766572;
  0x6f62737461636c65; 0x6f6274656e6972; 0x6f627475726572; 0x6f63636173696f6e; 0x6f636375706572; 0x6f6365cc81616e; 0x6f63746f627265; 0x6f6374726f796572;
  0x6f637475706c6572; 0x6f63756c61697265; 0x6f64657572; 0x6f646f72616e74; 0x6f6666656e736572; 0x6f66666963696572; 0x6f6666726972; 0x6f67697665;
  0x6f6973656175; 0x6f6973696c6c6f6e; 0x6f6c666163746966; 0x6f6c6976696572; 0x6f6d6272616765; 0x6f6d6574747265; 0x6f6e637475657578; 0x6f6e64756c6572;
  0x6f6e65cc8172657578; 0x6f6e697269717565; 0x6f70616c65; 0x6f7061717565; 0x6f7065cc81726572; 0x6f70696e696f6e; 0x6f70706f7274756e; 0x6f707072696d6572;
  0x6f70746572; 0x6f707469717565; 0x6f726167657578; 0x6f72616e6765; 0x6f7262697465; 0x6f72646f6e6e6572; 0x6f7265696c6c65; 0x6f7267616e65;
  0x6f72677565696c; 0x6f726966696365; 0x6f726e656d656e74; 0x6f72717565; 0x6f72746965; 0x6f7363696c6c6572; 0x6f736d6f7365; 0x6f73736174757265;
  0x6f7461726965; 0x6f75726167616e; 0x6f7572736f6e; 0x6f7574696c; 0x6f75747261676572; 0x6f757672616765; 0x6f766174696f6e; 0x6f78796465;
  0x6f78796765cc806e65; 0x6f7a6f6e65; 0x7061697369626c65; 0x70616c616365; 0x70616c6d617265cc8073; 0x70616c6f75726465; 0x70616c706572; 0x70616e61636865;
  0x70616e6461; 0x70616e676f6c696e; 0x70616e6971756572; 0x70616e6e656175; 0x70616e6f72616d61; 0x70616e74616c6f6e; 0x706170617965; 0x706170696572;
  0x7061706f746572; 0x70617079727573; 0x70617261646f7865; 0x70617263656c6c65; 0x70617265737365; 0x70617266756d6572; 0x7061726c6572; 0x7061726f6c65;
  0x7061727261696e; 0x70617273656d6572; 0x7061727461676572; 0x706172757265; 0x70617276656e6972; 0x70617373696f6e; 0x7061737465cc80717565; 0x70617465726e656c;
  0x70617469656e6365; 0x706174726f6e; 0x706176696c6c6f6e; 0x7061766f69736572; 0x7061796572; 0x70617973616765; 0x706569676e65; 0x7065696e747265;
  0x70656c616765; 0x7065cc816c6963616e; 0x70656c6c65; 0x70656c6f757365; 0x70656c75636865; 0x70656e64756c65; 0x7065cc816e65cc8174726572; 0x7065cc816e69626c65;
  0x70656e736966; 0x7065cc816e75726965; 0x7065cc8170697465; 0x7065cc81706c756d; 0x70657264726978; 0x706572666f726572; 0x7065cc8172696f6465; 0x7065726d75746572;
  0x706572706c657865; 0x70657273696c; 0x7065727465; 0x7065736572; 0x7065cc8174616c65; 0x7065746974; 0x7065cc8174726972; 0x706575706c65;
  0x70686172616f6e; 0x70686f626965; 0x70686f717565; 0x70686f746f6e; 0x706872617365; 0x7068797369717565; 0x7069616e6f; 0x706963747572616c;
  0x706965cc806365; 0x706965727265; 0x70696575767265; 0x70696c6f7465; 0x70696e63656175; 0x70697065747465; 0x706971756572; 0x7069726f677565;
  0x70697363696e65; 0x706973746f6e; 0x7069766f746572; 0x706978656c; 0x70697a7a61; 0x706c6163617264; 0x706c61666f6e64; 0x706c6169736972;
  0x706c616e6572; 0x706c61717565; 0x706c617374726f6e; 0x706c6174656175; 0x706c6575726572; 0x706c65787573; 0x706c69616765; 0x706c6f6d62;
  0x706c6f6e676572; 0x706c756965; 0x706c756d616765; 0x706f636865747465; 0x706f65cc81736965; 0x706f65cc807465; 0x706f696e7465; 0x706f6972696572;
  0x706f6973736f6e; 0x706f69767265; 0x706f6c61697265; 0x706f6c6963696572; 0x706f6c6c656e; 0x706f6c79676f6e65; 0x706f6d6d616465; 0x706f6d70696572;
  0x706f6e637475656c; 0x706f6e6465cc81726572; 0x706f6e6579; 0x706f727469717565; 0x706f736974696f6e; 0x706f737365cc81646572; 0x706f7374757265; 0x706f7461676572;
  0x706f74656175; 0x706f74696f6e; 0x706f756365; 0x706f756c61696e; 0x706f756d6f6e; 0x706f7572707265; 0x706f757373696e; 0x706f75766f6972;
  0x70726169726965; 0x7072617469717565; 0x707265cc816369657578; 0x707265cc8164697265; 0x707265cc8166697865; 0x707265cc816c756465; 0x707265cc816e6f6d; 0x707265cc8173656e6365;
  0x707265cc817465787465; 0x707265cc81766f6972; 0x7072696d69746966; 0x7072696e6365; 0x707269736f6e; 0x707269766572; 0x70726f626c65cc806d65; 0x70726f6365cc81646572;
  0x70726f64696765; 0x70726f666f6e64; 0x70726f677265cc8073; 0x70726f6965; 0x70726f6a65746572; 0x70726f6c6f677565; 0x70726f6d656e6572; 0x70726f707265;
  0x70726f737065cc807265; 0x70726f7465cc81676572; 0x70726f7565737365; 0x70726f7665726265; 0x70727564656e6365; 0x7072756e656175; 0x70737963686f7365; 0x7075626c6963;
  0x70756365726f6e; 0x707569736572; 0x70756c7065; 0x70756c736172; 0x70756e61697365; 0x70756e69746966; 0x70757069747265; 0x7075726966696572;
  0x70757a7a6c65; 0x707972616d696465; 0x717561736172; 0x71756572656c6c65; 0x7175657374696f6e; 0x71756965cc8174756465; 0x71756974746572; 0x71756f7469656e74;
  0x726163696e65; 0x7261636f6e746572; 0x72616469657578; 0x7261676f6e64696e; 0x72616964657572; 0x72616973696e; 0x72616c656e746972; 0x72616c6c6f6e6765;
  0x72616d6173736572; 0x726170696465; 0x726173616765; 0x7261746973736572; 0x72617661676572; 0x726176696e; 0x7261796f6e6e6572; 0x7265cc816163746966;
  0x7265cc8161676972; 0x7265cc81616c69736572; 0x7265cc81616e696d6572; 0x72656365766f6972; 0x7265cc816369746572; 0x7265cc81636c616d6572; 0x7265cc81636f6c746572; 0x7265637275746572;
  0x726563756c6572; 0x72656379636c6572; 0x7265cc816469676572; 0x7265646f75746572; 0x72656661697265; 0x7265cc81666c657865; 0x7265cc81666f726d6572; 0x7265667261696e;
  0x726566756765; 0x7265cc8167616c69656e; 0x7265cc8167696f6e; 0x7265cc81676c616765; 0x7265cc8167756c696572; 0x7265cc81697465cc81726572; 0x72656a65746572; 0x72656a6f756572;
  0x72656c61746966; 0x72656c65766572; 0x72656c696566; 0x72656d6172717565; 0x72656d65cc806465; 0x72656d697365; 0x72656d6f6e746572; 0x72656d706c6972;
  0x72656d756572; 0x72656e617264; 0x72656e666f7274; 0x72656e69666c6572; 0x72656e6f6e636572; 0x72656e74726572; 0x72656e766f69; 0x7265706c696572;
  0x7265706f72746572; 0x72657072697365; 0x72657074696c65; 0x72657175696e; 0x7265cc817365727665; 0x7265cc8173696e657578; 0x7265cc81736f75647265; 0x72657370656374;
  0x726573746572; 0x7265cc8173756c746174; 0x7265cc817461626c6972; 0x726574656e6972; 0x7265cc81746963756c65; 0x7265746f6d626572; 0x7265747261636572; 0x7265cc81756e696f6e;
  0x7265cc817573736972; 0x726576616e636865; 0x72657669767265; 0x7265cc81766f6c7465; 0x7265cc8176756c736966; 0x7269636865737365; 0x726964656175; 0x7269657572;
  0x726967696465; 0x7269676f6c6572; 0x72696e636572; 0x7269706f73746572; 0x72697369626c65; 0x726973717565; 0x72697475656c; 0x726976616c;
  0x7269766965cc807265; 0x726f6368657578; 0x726f6d616e6365; 0x726f6d707265; 0x726f6e6365; 0x726f6e64696e; 0x726f73656175; 0x726f73696572;
  0x726f7461746966; 0x726f746f72; 0x726f74756c65; 0x726f756765; 0x726f75696c6c65; 0x726f756c656175; 0x726f7574696e65; 0x726f7961756d65;
  0x727562616e; 0x7275626973; 0x7275636865; 0x7275656c6c65; 0x72756775657578; 0x7275696e6572; 0x7275697373656175; 0x7275736572;
  0x7275737469717565; 0x727974686d65; 0x7361626c6572; 0x7361626f746572; 0x7361627265; 0x7361636f636865; 0x736166617269; 0x73616765737365;
  0x736169736972; 0x73616c616465; 0x73616c697665; 0x73616c6f6e; 0x73616c756572; 0x73616d656469; 0x73616e6374696f6e; 0x73616e676c696572;
  0x7361726361736d65; 0x73617264696e65; 0x73617475726572; 0x7361756772656e75; 0x7361756d6f6e; 0x736175746572; 0x73617576616765; 0x736176616e74;
  0x7361766f6e6e6572; 0x7363616c70656c; 0x7363616e64616c65; 0x736365cc816c65cc81726174; 0x736365cc816e6172696f; 0x73636570747265; 0x73636865cc816d61; 0x736369656e6365;
  0x7363696e646572; 0x73636f7265; 0x7363727574696e; 0x7363756c70746572; 0x7365cc81616e6365; 0x7365cc816361626c65; 0x7365cc8163686572; 0x7365636f756572;
  0x7365cc81637265cc81746572; 0x7365cc816461746966; 0x7365cc816475697265; 0x736569676e657572; 0x7365cc816a6f7572; 0x7365cc816c6563746966; 0x73656d61696e65; 0x73656d626c6572;
  0x73656d656e6365; 0x7365cc816d696e616c; 0x7365cc816e6174657572; 0x73656e7369626c65; 0x73656e74656e6365; 0x7365cc817061726572; 0x7365cc817175656e6365; 0x73657265696e;
  0x73657267656e74; 0x7365cc817269657578; 0x73657272757265; 0x7365cc8172756d; 0x73657276696365; 0x7365cc8173616d65; 0x7365cc81766972; 0x73657672616765;
  0x7365787475706c65; 0x73696465cc8172616c; 0x736965cc80636c65; 0x736965cc81676572; 0x736966666c6572; 0x7369676c65; 0x7369676e616c; 0x73696c656e6365;
  0x73696c696369756d; 0x73696d706c65; 0x73696e6365cc807265; 0x73696e6973747265; 0x736970686f6e; 0x7369726f70; 0x7369736d69717565; 0x736974756572;
  0x736b696572; 0x736f6369616c; 0x736f636c65; 0x736f6469756d; 0x736f69676e657578; 0x736f6c646174; 0x736f6c65696c; 0x736f6c6974756465;
  0x736f6c75626c65; 0x736f6d627265; 0x736f6d6d65696c; 0x736f6d6e6f6c6572; 0x736f6e6465; 0x736f6e67657572; 0x736f6e6e65747465; 0x736f6e6f7265;
  0x736f7263696572; 0x736f72746972; 0x736f736965; 0x736f7474697365; 0x736f756369657578; 0x736f7564757265; 0x736f7566666c65; 0x736f756c65766572;
  0x736f7570617065; 0x736f75726365; 0x736f757469726572; 0x736f7576656e6972; 0x7370616369657578; 0x7370617469616c; 0x737065cc816369616c; 0x73706865cc807265;
  0x73706972616c; 0x737461626c65; 0x73746174696f6e; 0x737465726e756d; 0x7374696d756c7573; 0x73746970756c6572; 0x737472696374; 0x7374756469657578;
  0x73747570657572; 0x7374796c69737465; 0x7375626c696d65; 0x7375627374726174; 0x73756274696c; 0x73756276656e6972; 0x7375636365cc8073; 0x7375637265;
  0x73756666697865; 0x7375676765cc81726572; 0x73756976657572; 0x73756c66617465; 0x73757065726265; 0x737570706c696572; 0x73757266616365; 0x7375726963617465;
  0x7375726d656e6572; 0x7375727072697365; 0x73757273617574; 0x737572766965; 0x73757370656374; 0x73796c6c616265; 0x73796d626f6c65; 0x73796d65cc8174726965;
  0x73796e61707365; 0x73796e74617865; 0x7379737465cc806d65; 0x7461626163; 0x7461626c696572; 0x74616374696c65; 0x7461696c6c6572; 0x74616c656e74;
  0x74616c69736d616e; 0x74616c6f6e6e6572; 0x74616d626f7572; 0x74616d69736572; 0x74616e6769626c65; 0x7461706973; 0x74617175696e6572; 0x746172646572;
  0x7461726966; 0x74617274696e65; 0x7461737365; 0x746174616d69; 0x7461746f75616765; 0x7461757065; 0x74617572656175; 0x7461786572;
  0x7465cc816d6f696e; 0x74656d706f72656c; 0x74656e61696c6c65; 0x74656e647265; 0x74656e657572; 0x74656e6972; 0x74656e73696f6e; 0x7465726d696e6572;
  0x7465726e65; 0x7465727269626c65; 0x7465cc8174696e65; 0x7465787465; 0x746865cc806d65; 0x746865cc816f726965; 0x746865cc817261706965; 0x74686f726178;
  0x7469626961; 0x746965cc806465; 0x74696d696465; 0x746972656c697265; 0x7469726f6972; 0x7469737375; 0x746974616e65; 0x7469747265;
  0x74697475626572; 0x746f626f6767616e; 0x746f6c65cc8172616e74; 0x746f6d617465; 0x746f6e69717565; 0x746f6e6e656175; 0x746f706f6e796d65; 0x746f72636865;
  0x746f72647265; 0x746f726e616465; 0x746f7270696c6c65; 0x746f7272656e74; 0x746f727365; 0x746f72747565; 0x746f74656d; 0x746f7563686572;
  0x746f75726e616765; 0x746f7573736572; 0x746f78696e65; 0x7472616374696f6e; 0x747261666963; 0x7472616769717565; 0x747261686972; 0x747261696e;
  0x7472616e63686572; 0x7472617661696c; 0x747265cc80666c65; 0x7472656d706572; 0x747265cc81736f72; 0x74726575696c; 0x747269616765; 0x74726962756e616c;
  0x747269636f746572; 0x7472696c6f676965; 0x7472696f6d706865; 0x747269706c6572; 0x7472697475726572; 0x7472697669616c; 0x74726f6d626f6e65; 0x74726f6e63;
  0x74726f706963616c; 0x74726f7570656175; 0x7475696c65; 0x74756c697065; 0x74756d756c7465; 0x74756e6e656c; 0x74757262696e65; 0x747574657572;
  0x7475746f796572; 0x7475796175; 0x74796d70616e; 0x747970686f6e; 0x74797069717565; 0x747972616e; 0x7562756573717565; 0x756c74696d65;
  0x756c747261736f6e; 0x756e616e696d65; 0x756e6966696572; 0x756e696f6e; 0x756e69717565; 0x756e697461697265; 0x756e6976657273; 0x7572616e69756d;
  0x75726261696e; 0x7572746963616e74; 0x7573616765; 0x7573696e65; 0x757375656c; 0x7573757265; 0x7574696c65; 0x75746f706965;
  0x76616361726d65; 0x76616363696e; 0x76616761626f6e64; 0x7661677565; 0x7661696c6c616e74; 0x7661696e637265; 0x7661697373656175; 0x76616c61626c65;
  0x76616c697365; 0x76616c6c6f6e; 0x76616c7665; 0x76616d70697265; 0x76616e696c6c65; 0x766170657572; 0x766172696572; 0x766173657578;
  0x76617373616c; 0x7661737465; 0x76656374657572; 0x76656465747465; 0x7665cc816765cc8174616c; 0x7665cc81686963756c65; 0x7665696e617264; 0x7665cc816c6f6365;
  0x76656e6472656469; 0x7665cc816e65cc81726572; 0x76656e676572; 0x76656e696d657578; 0x76656e746f757365; 0x76657264757265; 0x7665cc8172696e; 0x7665726e6972;
  0x766572726f75; 0x766572736572; 0x7665727475; 0x766573746f6e; 0x7665cc817465cc8172616e; 0x7665cc817475737465; 0x766578616e74; 0x7665786572;
  0x766961647563; 0x7669616e6465; 0x766963746f697265; 0x766964616e6765; 0x76696465cc816f; 0x7669676e65747465; 0x76696775657572; 0x76696c61696e;
  0x76696c6c616765; 0x76696e6169677265; 0x76696f6c6f6e; 0x76697065cc807265; 0x766972656d656e74; 0x76697274756f7365; 0x7669727573; 0x766973616765;
  0x766973657572; 0x766973696f6e; 0x7669737175657578; 0x76697375656c; 0x766974616c; 0x76697465737365; 0x76697469636f6c65; 0x76697472696e65;
  0x766976616365; 0x7669766970617265; 0x766f636174696f6e; 0x766f67756572; 0x766f696c65; 0x766f6973696e; 0x766f6974757265; 0x766f6c61696c6c65;
  0x766f6c63616e; 0x766f6c7469676572; 0x766f6c756d65; 0x766f72616365; 0x766f72746578; 0x766f746572; 0x766f756c6f6972; 0x766f79616765;
  0x766f79656c6c65; 0x7761676f6e; 0x7865cc816e6f6e; 0x7961636874; 0x7a65cc80627265; 0x7a65cc816e697468; 0x7a65737465; 0x7a6f6f6c6f676965].

(** bip39_dictionary.hpp:10332-12381 *)
Definition dict_italian : list Z := [
  0x616261636f; 0x61626261676c696f; 0x616262696e61746f; 0x6162657465; 0x61626973736f; 0x61626f6c697265; 0x616272617369766f; 0x6162726f6761746f;
  0x6163636164657265; 0x616363656e6e6f; 0x616363757361746f; 0x616365746f6e65; 0x616368696c6c65; 0x616369646f; 0x6163717561; 0x61637265;
  0x616372696c69636f; 0x6163726f62617461; 0x616375746f; 0x61646167696f; 0x616464656269746f; 0x6164646f6d65; 0x616465677561746f; 0x61646572697265;
  0x6164697065; 0x61646f7474617265; 0x6164756c617265; 0x6166666162696c65; 0x6166666574746f; 0x6166666973736f; 0x61666672616e746f; 0x61666f7269736d61;
  0x61666f736f; 0x6166726963616e6f; 0x6167617665; 0x6167656e7465; 0x616765766f6c65; 0x616767616e63696f; 0x6167697265; 0x61676974617265;
  0x61676f6e69736d6f; 0x61677269636f6c6f; 0x616772756d65746f; 0x6167757a7a6f; 0x616c616261726461; 0x616c61746f; 0x616c626174726f; 0x616c62657261746f;
  0x616c626f; 0x616c62756d65; 0x616c6365; 0x616c636f6c69636f; 0x616c6574746f6e65; 0x616c6661; 0x616c6765627261; 0x616c69616e7465;
  0x616c696269; 0x616c696d656e746f; 0x616c6c616761746f; 0x616c6c6567726f; 0x616c6c6965766f; 0x616c6c6f646f6c61; 0x616c6c757369766f; 0x616c6d656e6f;
  0x616c6f67656e6f; 0x616c70616361; 0x616c706573747265; 0x616c74616c656e61; 0x616c7465726e6f; 0x616c74696363696f; 0x616c74726f7665; 0x616c756e6e6f;
  0x616c76656f6c6f; 0x616c7a617265; 0x616d616c67616d61; 0x616d616e697461; 0x616d6172656e61; 0x616d6269746f; 0x616d627261746f; 0x616d656261;
  0x616d6572696361; 0x616d657469737461; 0x616d69636f; 0x616d6d6173736f; 0x616d6d656e6461; 0x616d6d6972617265; 0x616d6d6f6e69746f; 0x616d6f7265;
  0x616d70696f; 0x616d706c69617265; 0x616d756c65746f; 0x616e61636172646f; 0x616e616772616665; 0x616e616c69737461; 0x616e617263686961; 0x616e61747261;
  0x616e6361; 0x616e63656c6c61; 0x616e636f7261; 0x616e64617265; 0x616e64726561; 0x616e656c6c6f; 0x616e67656c6f; 0x616e676f6c617265;
  0x616e677573746f; 0x616e696d61; 0x616e6e6567617265; 0x616e6e696461746f; 0x616e6e6f; 0x616e6e756e63696f; 0x616e6f6e696d6f; 0x616e74696369706f;
  0x616e7a69; 0x6170617469636f; 0x6170657274757261; 0x61706f6465; 0x6170706172697265; 0x617070657469746f; 0x6170706f6767696f; 0x617070726f646f;
  0x617070756e746f; 0x617072696c65; 0x61726162696361; 0x6172616368696465; 0x617261676f737461; 0x6172616c64696361; 0x6172616e63696f; 0x61726174757261;
  0x6172617a7a6f; 0x6172626974726f; 0x617263686976696f; 0x61726469746f; 0x6172656e696c65; 0x617267656e746f; 0x617267696e65; 0x61726775746f;
  0x61726961; 0x61726d6f6e6961; 0x61726e657365; 0x617272656461746f; 0x617272696e6761; 0x6172726f73746f; 0x617273656e69636f; 0x6172736f;
  0x6172746566696365; 0x61727a696c6c6f; 0x617363697574746f; 0x6173636f6c746f; 0x617365707369; 0x617365747469636f; 0x617366616c746f; 0x6173696e6f;
  0x61736f6c61; 0x617370697261746f; 0x617370726f; 0x617373616767696f; 0x61737365; 0x6173736f6c75746f; 0x6173737572646f; 0x61737461;
  0x617374656e75746f; 0x617374696365; 0x617374726174746f; 0x6174617669636f; 0x61746569736d6f; 0x61746f6d69636f; 0x61746f6e6f; 0x617474657361;
  0x6174746976617265; 0x6174746f726e6f; 0x6174747269746f; 0x61747475616c65; 0x617573696c696f; 0x61757374726961; 0x61757469737461; 0x6175746f6e6f6d6f;
  0x617574756e6e6f; 0x6176616e7a61746f; 0x6176657265; 0x617676656e697265; 0x61767669736f; 0x6176766f6c67657265; 0x617a696f6e65; 0x617a6f746f;
  0x617a7a696d6f; 0x617a7a7572726f; 0x626162656c65; 0x62616363616e6f; 0x626163696e6f; 0x6261636f; 0x62616465737361; 0x626164696c617461;
  0x6261676e61746f; 0x6261697461; 0x62616c636f6e65; 0x62616c646f; 0x62616c656e61; 0x62616c6c617461; 0x62616c7a616e6f; 0x62616d62696e6f;
  0x62616e64697265; 0x626172616f6e6461; 0x6261726261726f; 0x6261726361; 0x62617269746f6e6f; 0x6261726c756d65; 0x6261726f63636f; 0x626173696c69636f;
  0x626173736f; 0x6261746f737461; 0x6261747475746f; 0x6261756c65; 0x62617661; 0x6261766f7361; 0x626563636f; 0x6265666661;
  0x62656c67696f; 0x62656c7661; 0x62656e6461; 0x62656e65766f6c65; 0x62656e69676e6f; 0x62656e7a696e61; 0x62657265; 0x6265726c696e61;
  0x62657461; 0x626962697461; 0x62696369; 0x6269646f6e65; 0x62696669646f; 0x62696761; 0x62696c616e636961; 0x62696d626f;
  0x62696e6f636f6c6f; 0x62696f6c6f676f; 0x626970656465; 0x6269706f6c617265; 0x62697262616e7465; 0x6269727261; 0x626973636f74746f; 0x6269736573746f;
  0x6269736e6f6e6e6f; 0x6269736f6e7465; 0x62697374757269; 0x62697a7a6172726f; 0x626c616e646f; 0x626c61747461; 0x626f6c6c69746f; 0x626f6e696669636f;
  0x626f72646f; 0x626f73636f; 0x626f74616e69636f; 0x626f7474696e6f; 0x626f7a7a6f6c6f; 0x6272616363696f; 0x6272616469706f; 0x6272616d61;
  0x6272616e6361; 0x62726176757261; 0x62726574656c6c61; 0x627265766574746f; 0x6272657a7a61; 0x627269676c6961; 0x6272696c6c616e7465; 0x6272696e64617265;
  0x62726f63636f6c6f; 0x62726f646f; 0x62726f6e7a696e61; 0x6272756c6c6f; 0x6272756e6f; 0x627562626f6e65; 0x62756361; 0x627564696e6f;
  0x627566666f6e65; 0x6275696f; 0x62756c626f; 0x62756f6e6f; 0x6275726c6f6e65; 0x6275727261736361; 0x627573736f6c61; 0x6275737461;
  0x6361646574746f; 0x63616475636f; 0x63616c616d61726f; 0x63616c636f6c6f; 0x63616c65737365; 0x63616c6962726f; 0x63616c6d6f; 0x63616c6f726961;
  0x63616d62757361; 0x63616d6572617461; 0x63616d69636961; 0x63616d6d696e6f; 0x63616d6f6c61; 0x63616d70616c65; 0x63616e617061; 0x63616e64656c61;
  0x63616e65; 0x63616e696e6f; 0x63616e6f74746f; 0x63616e74696e61; 0x636170616365; 0x636170656c6c6f; 0x63617069746f6c6f; 0x6361706f6769726f;
  0x6361707065726f; 0x6361707261; 0x63617073756c61; 0x6361726170616365; 0x6361726361737361; 0x636172646f; 0x63617269736d61; 0x6361726f76616e61;
  0x636172726574746f; 0x636172746f6c696e61; 0x636173616363696f; 0x63617363617461; 0x63617365726d61; 0x6361736f; 0x636173736f6e65; 0x63617374656c6c6f;
  0x63617375616c65; 0x63617461737461; 0x636174656e61; 0x63617472616d65; 0x636175746f; 0x636176696c6c6f; 0x6365646962696c65; 0x63656472617461;
  0x636566616c6f; 0x63656c65627265; 0x63656c6c756c617265; 0x63656e61; 0x63656e6f6e65; 0x63656e746573696d6f; 0x636572616d696361; 0x63657263617265;
  0x636572746f; 0x636572756d65; 0x63657276656c6c6f; 0x6365736f6961; 0x636573706f; 0x6365746f; 0x6368656c61; 0x63686961726f;
  0x636869636361; 0x6368696564657265; 0x6368696d657261; 0x6368696e61; 0x636869727572676f; 0x6368697461727261; 0x6369616f; 0x6369636c69736d6f;
  0x63696672617265; 0x6369676e6f; 0x63696c696e64726f; 0x63696f74746f6c6f; 0x6369726361; 0x636972726f7369; 0x6369747269636f; 0x636974746164696e6f;
  0x63697566666f; 0x63697665747461; 0x636976696c65; 0x636c61737369636f; 0x636c696e696361; 0x636c6f726f; 0x636f63636f; 0x636f646172646f;
  0x636f64696365; 0x636f6572656e7465; 0x636f676e6f6d65; 0x636f6c6c617265; 0x636f6c6d61746f; 0x636f6c6f7265; 0x636f6c706f736f; 0x636f6c74697661746f;
  0x636f6c7a61; 0x636f6d61; 0x636f6d657461; 0x636f6d6d616e646f; 0x636f6d6f646f; 0x636f6d7075746572; 0x636f6d756e65; 0x636f6e6369736f;
  0x636f6e6475727265; 0x636f6e6665726d61; 0x636f6e67656c617265; 0x636f6e69756765; 0x636f6e6e6573736f; 0x636f6e6f7363657265; 0x636f6e73756d6f; 0x636f6e74696e756f;
  0x636f6e7665676e6f; 0x636f706572746f; 0x636f70696f6e65; 0x636f70706961; 0x636f7072696361706f; 0x636f72617a7a61; 0x636f7264617461; 0x636f72696361746f;
  0x636f726e696365; 0x636f726f6c6c61; 0x636f72706f; 0x636f727265646f; 0x636f72736961; 0x636f7274657365; 0x636f736d69636f; 0x636f7374616e7465;
  0x636f7474757261; 0x636f7661746f; 0x63726174657265; 0x6372617661747461; 0x63726561746f; 0x63726564657265; 0x6372656d6f736f; 0x6372657363697461;
  0x6372657461; 0x6372696365746f; 0x6372696e616c65; 0x6372697369; 0x6372697469636f; 0x63726f6365; 0x63726f6e616361; 0x63726f7374617461;
  0x6372756369616c65; 0x637275736361; 0x637563697265; 0x637563756c6f; 0x637567696e6f; 0x63756c6c61746f; 0x6375706f6c61; 0x63757261746f7265;
  0x637572736f7265; 0x637572766f; 0x63757363696e6f; 0x637573746f6465; 0x6461646f; 0x6461696e6f; 0x64616c6d617461; 0x64616d6572696e6f;
  0x64616e69656c61; 0x64616e6e6f736f; 0x64616e7a617265; 0x64617461746f; 0x646176616e7469; 0x6461767665726f; 0x6465627574746f; 0x646563656e6e696f;
  0x64656369736f; 0x6465636c696e6f; 0x6465636f6c6c6f; 0x6465637265746f; 0x646564696361746f; 0x646566696e69746f; 0x6465666f726d65; 0x6465676e6f;
  0x64656c6567617265; 0x64656c66696e6f; 0x64656c6972696f; 0x64656c7461; 0x64656d656e7a61; 0x64656e6f7461746f; 0x64656e74726f; 0x6465706f7369746f;
  0x6465726170617461; 0x6465726976617265; 0x6465726f6761; 0x64657363726974746f; 0x6465736572746f; 0x64657369646572696f; 0x646573756d657265; 0x64657465727369766f;
  0x6465766f746f; 0x6469616d6574726f; 0x646963656d627265; 0x64696564726f; 0x64696665736f; 0x6469666675736f; 0x6469676572697265; 0x6469676974616c65;
  0x64696c7576696f; 0x64696e616d69636f; 0x64696e6e616e7a69; 0x646970696e746f; 0x6469706c6f6d61; 0x6469706f6c6f; 0x6469726164617265; 0x64697265;
  0x6469726f74746f; 0x64697275706f; 0x6469736167696f; 0x646973637265746f; 0x64697366617265; 0x64697367656c6f; 0x646973706f73746f; 0x64697374616e7a61;
  0x646973756d616e6f; 0x6469746f; 0x646976616e6f; 0x646976656c746f; 0x6469766964657265; 0x6469766f7261746f; 0x646f626c6f6e65; 0x646f63656e7465;
  0x646f67616e616c65; 0x646f676d61; 0x646f6c6365; 0x646f6d61746f; 0x646f6d656e696361; 0x646f6d696e617265; 0x646f6e646f6c6f; 0x646f6e6f;
  0x646f726d697265; 0x646f7465; 0x646f74746f7265; 0x646f7675746f; 0x646f7a7a696e61; 0x647261676f; 0x64727569646f; 0x64756262696f;
  0x6475626974617265; 0x647563616c65; 0x64756e61; 0x64756f6d6f; 0x6475706c696365; 0x647572617475726f; 0x6562616e6f; 0x6563636573736f;
  0x6563636f; 0x65636c69737369; 0x65636f6e6f6d6961; 0x6564657261; 0x656469636f6c61; 0x6564696c65; 0x656469746f726961; 0x65647563617265;
  0x6567656d6f6e6961; 0x65676c69; 0x65676f69736d6f; 0x6567726567696f; 0x656c61626f7261746f; 0x656c617267697265; 0x656c6567616e7465; 0x656c656e6361746f;
  0x656c6574746f; 0x656c6576617265; 0x656c6669636f; 0x656c696361; 0x656c6d6f; 0x656c7361; 0x656c75736f; 0x656d616e61746f;
  0x656d626c656d61; 0x656d6573736f; 0x656d69726f; 0x656d6f7469766f; 0x656d6f7a696f6e65; 0x656d70697269636f; 0x656d756c6f; 0x656e64656d69636f;
  0x656e6475726f; 0x656e6572676961; 0x656e66617369; 0x656e6f74656361; 0x656e7472617265; 0x656e7a696d61; 0x65706174697465; 0x6570696c6f676f;
  0x657069736f64696f; 0x65706f63616c65; 0x657070757265; 0x65717561746f7265; 0x65726172696f; 0x65726261; 0x6572626f736f; 0x6572656465;
  0x6572656d697461; 0x65726967657265; 0x65726d657469636f; 0x65726f65; 0x65726f7369766f; 0x657272616e7465; 0x657361676f6e6f; 0x6573616d65;
  0x6573616e696d65; 0x6573617564697265; 0x65736361; 0x6573656d70696f; 0x657365726369746f; 0x6573696269746f; 0x65736967656e7465; 0x6573697374657265;
  0x657369746f; 0x65736f6661676f; 0x65736f727461746f; 0x65736f736f; 0x657370616e736f; 0x657370726573736f; 0x657373656e7a61; 0x6573736f;
  0x65737465736f; 0x657374696d617265; 0x6573746f6e6961; 0x657374726f736f; 0x6573756c74617265; 0x6574696c69636f; 0x65746e69636f; 0x6574727573636f;
  0x6574746f; 0x6575636c6964656f; 0x6575726f7061; 0x657661736f; 0x65766964656e7a61; 0x6576697461746f; 0x65766f6c75746f; 0x657676697661;
  0x6661626272696361; 0x66616363656e6461; 0x6661636869726f; 0x66616c636f; 0x66616d69676c6961; 0x66616e616c65; 0x66616e66617261; 0x66616e676f;
  0x66616e7461736d61; 0x66617265; 0x66617266616c6c61; 0x666172696e6f736f; 0x6661726d61636f; 0x666173636961; 0x666173746f736f; 0x666173756c6c6f;
  0x6661746963617265; 0x6661746f; 0x6661766f6c6f736f; 0x666562627265; 0x6665636f6c61; 0x66656465; 0x66656761746f; 0x66656c7061;
  0x66656c74726f; 0x66656d6d696e61; 0x66656e64657265; 0x66656e6f6d656e6f; 0x6665726d656e746f; 0x666572726f; 0x66657274696c65; 0x66657373757261;
  0x6665737469766f; 0x6665747461; 0x666575646f; 0x6669616261; 0x66696475636961; 0x66696661; 0x666967757261746f; 0x66696c6f;
  0x66696e616e7a61; 0x66696e6573747261; 0x66696e697265; 0x66696f7265; 0x66697363616c65; 0x66697369636f; 0x6669756d65; 0x666c61636f6e65;
  0x666c616d656e636f; 0x666c65626f; 0x666c656d6d61; 0x666c6f7269646f; 0x666c75656e7465; 0x666c756f726f; 0x666f6269636f; 0x666f636163636961;
  0x666f636f736f; 0x666f64657261746f; 0x666f676c696f; 0x666f6c617461; 0x666f6c636c6f7265; 0x666f6c676f7265; 0x666f6e64656e7465; 0x666f6e657469636f;
  0x666f6e6961; 0x666f6e74616e61; 0x666f726269746f; 0x666f72636865747461; 0x666f7265737461; 0x666f726d696361; 0x666f726e61696f; 0x666f726f;
  0x666f7274657a7a61; 0x666f727a617265; 0x666f736661746f; 0x666f73736f; 0x667261636173736f; 0x6672616e61; 0x6672617373696e6f; 0x66726174656c6c6f;
  0x667265636365747461; 0x6672656e617461; 0x66726573636f; 0x667269676f; 0x66726f6c6c696e6f; 0x66726f6e6465; 0x66727567616c65; 0x667275747461;
  0x667563696c617461; 0x667563736961; 0x66756767656e7465; 0x66756c6d696e65; 0x66756c766f; 0x66756d616e7465; 0x66756d6574746f; 0x66756d6f736f;
  0x66756e65; 0x66756e7a696f6e65; 0x66756f636f; 0x667572626f; 0x667572676f6e65; 0x6675726f7265; 0x6675736f; 0x667574696c65;
  0x6761626269616e6f; 0x6761666665; 0x67616c6174656f; 0x67616c6c696e61; 0x67616c6f70706f; 0x67616d6265726f; 0x67616d6d61; 0x676172616e7a6961;
  0x676172626f; 0x6761726f66616e6f; 0x6761727a6f6e65; 0x676173646f74746f; 0x6761736f6c696f; 0x676173747269636f; 0x676174746f; 0x67617564696f;
  0x67617a65626f; 0x67617a7a656c6c61; 0x6765636f; 0x67656c6174696e61; 0x67656c736f; 0x67656d656c6c6f; 0x67656d6d61746f; 0x67656e65;
  0x67656e69746f7265; 0x67656e6e61696f; 0x67656e6f7469706f; 0x676572676f; 0x676865706172646f; 0x676869616363696f; 0x6768697361; 0x6769616c6c6f;
  0x67696c6461; 0x67696e6570726f; 0x67696f63617265; 0x67696f69656c6c6f; 0x67696f726e6f; 0x67696f7665; 0x67697261746f; 0x6769726f6e65;
  0x67697474617461; 0x67697564697a696f; 0x6769757261746f; 0x67697573746f; 0x676c6f62756c6f; 0x676c7574696e65; 0x676e6f6d6f; 0x676f626261;
  0x676f6c66; 0x676f6d69746f; 0x676f6d6d6f6e65; 0x676f6e66696f; 0x676f6e6e61; 0x676f7665726e6f; 0x67726163696c65; 0x677261646f;
  0x6772616669636f; 0x6772616d6d6f; 0x6772616e6465; 0x6772617474617265; 0x677261766f736f; 0x6772617a6961; 0x6772656361; 0x677265676765;
  0x677269666f6e65; 0x67726967696f; 0x6772696e7a61; 0x67726f747461; 0x67727570706f; 0x6775616461676e6f; 0x677561696f; 0x6775616e746f;
  0x6775617264617265; 0x6775666f; 0x67756964617265; 0x696265726e61746f; 0x69636f6e61; 0x6964656e7469636f; 0x6964696c6c696f; 0x69646f6c6f;
  0x69647261; 0x69647269636f; 0x6964726f67656e6f; 0x696769656e65; 0x69676e61726f; 0x69676e6f7261746f; 0x696c617265; 0x696c6c65736f;
  0x696c6c6f6769636f; 0x696c6c7564657265; 0x696d62616c6c6f; 0x696d62657675746f; 0x696d626f63636f; 0x696d6275746f; 0x696d6d616e65; 0x696d6d6572736f;
  0x696d6d6f6c61746f; 0x696d706163636f; 0x696d7065746f; 0x696d706965676f; 0x696d706f72746f; 0x696d70726f6e7461; 0x696e616c617265; 0x696e617263617265;
  0x696e61747469766f; 0x696e63616e746f; 0x696e63656e64696f; 0x696e6368696e6f; 0x696e63697369766f; 0x696e636c75736f; 0x696e636f6e74726f; 0x696e63726f63696f;
  0x696e6375626f; 0x696e646167696e65; 0x696e646961; 0x696e646f6c65; 0x696e656469746f; 0x696e6661747469; 0x696e66696c617265; 0x696e666c6974746f;
  0x696e67616767696f; 0x696e6765676e6f; 0x696e676c657365; 0x696e676f72646f; 0x696e67726f73736f; 0x696e6e6573636f; 0x696e6f646f7265; 0x696e6f6c7472617265;
  0x696e6f6e6461746f; 0x696e73616e6f; 0x696e736574746f; 0x696e7369656d65; 0x696e736f6e6e6961; 0x696e73756c696e61; 0x696e74617361746f; 0x696e7465726f;
  0x696e746f6e61636f; 0x696e747569746f; 0x696e756d6964697265; 0x696e76616c69646f; 0x696e76656365; 0x696e7669746f; 0x69706572626f6c65; 0x69706e6f7469636f;
  0x69706f74657369; 0x697070696361; 0x6972696465; 0x69726c616e6461; 0x69726f6e69636f; 0x697272696761746f; 0x6972726f72617265; 0x69736f6c61746f;
  0x69736f746f706f; 0x697374657269636f; 0x697374697475746f; 0x69737472696365; 0x6974616c6961; 0x69746572617265; 0x6c616262726f; 0x6c61626972696e746f;
  0x6c61636361; 0x6c6163657261746f; 0x6c616372696d61; 0x6c6163756e61; 0x6c6164646f7665; 0x6c61676f; 0x6c616d706f; 0x6c616e6365747461;
  0x6c616e7465726e61; 0x6c6172646f736f; 0x6c61726761; 0x6c6172696e6765; 0x6c6173747261; 0x6c6174656e7a61; 0x6c6174696e6f; 0x6c617474756761;
  0x6c617661676e61; 0x6c61766f726f; 0x6c6567616c65; 0x6c65676765726f; 0x6c656d626f; 0x6c656e74657a7a61; 0x6c656e7a61; 0x6c656f6e65;
  0x6c65707265; 0x6c657369766f; 0x6c65737361746f; 0x6c6573746f; 0x6c6574746572616c65; 0x6c657661; 0x6c6576696761746f; 0x6c696265726f;
  0x6c69646f; 0x6c69657669746f; 0x6c696c6c61; 0x6c696d6174757261; 0x6c696d6974617265; 0x6c696d7069646f; 0x6c696e65617265; 0x6c696e677561;
  0x6c69717569646f; 0x6c697261; 0x6c6972696361; 0x6c69736361; 0x6c697465; 0x6c69746967696f; 0x6c6976726561; 0x6c6f63616e6461;
  0x6c6f6465; 0x6c6f67696361; 0x6c6f6d62617265; 0x6c6f6e647261; 0x6c6f6e6765766f; 0x6c6f7175616365; 0x6c6f72656e7a6f; 0x6c6f746f;
  0x6c6f747465726961; 0x6c756365; 0x6c7563696461746f; 0x6c756d616361; 0x6c756d696e6f736f; 0x6c756e676f; 0x6c75706f; 0x6c7570706f6c6f;
  0x6c7573696e6761; 0x6c7573736f; 0x6c7574746f; 0x6d61636162726f; 0x6d61636368696e61; 0x6d616365726f; 0x6d6163696e61746f; 0x6d6164616d61;
  0x6d616769636f; 0x6d61676c6961; 0x6d61676e657465; 0x6d6167726f; 0x6d61696f6c696361; 0x6d616c6166656465; 0x6d616c677261646f; 0x6d616c696e7465736f;
  0x6d616c73616e6f; 0x6d616c746f; 0x6d616c756d6f7265; 0x6d616e61; 0x6d616e636961; 0x6d616e646f726c61; 0x6d616e6769617265; 0x6d616e69666573746f;
  0x6d616e6e61726f; 0x6d616e6f767261; 0x6d616e7361726461; 0x6d616e74696465; 0x6d616e756272696f; 0x6d61707061; 0x6d617261746f6e61; 0x6d617263697265;
  0x6d617265747461; 0x6d61726d6f; 0x6d6172737570696f; 0x6d61736368657261; 0x6d617373616961; 0x6d617374696e6f; 0x6d617465726173736f; 0x6d61747269636f6c61;
  0x6d6174746f6e65; 0x6d617475726f; 0x6d617a75726361; 0x6d65616e64726f; 0x6d656363616e69636f; 0x6d6563656e617465; 0x6d65646573696d6f; 0x6d65646974617265;
  0x6d656761; 0x6d656c61737361; 0x6d656c6973; 0x6d656c6f646961; 0x6d656e696e6765; 0x6d656e6f; 0x6d656e736f6c61; 0x6d6572637572696f;
  0x6d6572656e6461; 0x6d65726c6f; 0x6d65736368696e6f; 0x6d657365; 0x6d657373657265; 0x6d6573746f6c6f; 0x6d6574616c6c6f; 0x6d65746f646f;
  0x6d657474657265; 0x6d6961676f6c617265; 0x6d696361; 0x6d6963656c696f; 0x6d696368656c65; 0x6d6963726f626f; 0x6d69646f6c6c6f; 0x6d69656c65;
  0x6d69676c696f7265; 0x6d696c616e6f; 0x6d696c697465; 0x6d696d6f7361; 0x6d696e6572616c65; 0x6d696e69; 0x6d696e6f7265; 0x6d6972696e6f;
  0x6d697274696c6c6f; 0x6d697363656c61; 0x6d697373697661; 0x6d6973746f; 0x6d69737572617265; 0x6d6974657a7a61; 0x6d69746967617265; 0x6d69747261;
  0x6d697474656e7465; 0x6d6e656d6f6e69636f; 0x6d6f64656c6c6f; 0x6d6f646966696361; 0x6d6f64756c6f; 0x6d6f67616e6f; 0x6d6f67696f; 0x6d6f6c65;
  0x6d6f6c6f73736f; 0x6d6f6e61737465726f; 0x6d6f6e636f; 0x6d6f6e64696e61; 0x6d6f6e65746172696f; 0x6d6f6e696c65; 0x6d6f6e6f746f6e6f; 0x6d6f6e736f6e65;
  0x6d6f6e7461746f; 0x6d6f6e7669736f; 0x6d6f7261; 0x6d6f7264657265; 0x6d6f7273696361746f; 0x6d6f7374726f; 0x6d6f74697661746f; 0x6d6f746f73656761;
  0x6d6f74746f; 0x6d6f76656e7a61; 0x6d6f76696d656e746f; 0x6d6f7a7a6f; 0x6d75636361; 0x6d75636f7361; 0x6d75666661; 0x6d7567686574746f;
  0x6d75676e61696f; 0x6d756c6174746f; 0x6d756c696e656c6c6f; 0x6d756c7469706c6f; 0x6d756d6d6961; 0x6d756e746f; 0x6d756f76657265; 0x6d7572616c65;
  0x6d757361; 0x6d7573636f6c6f; 0x6d7573696361; 0x6d757465766f6c65; 0x6d75746f; 0x6e61626162626f; 0x6e61667461; 0x6e616e6f6d6574726f;
  0x6e61726369736f; 0x6e6172696365; 0x6e61727261746f; 0x6e617363657265; 0x6e61737472617265; 0x6e61747572616c65; 0x6e617574696361; 0x6e617669676c696f;
  0x6e6562756c6f7361; 0x6e6563726f7369; 0x6e6567617469766f; 0x6e65676f7a696f; 0x6e656d6d656e6f; 0x6e656f66697461; 0x6e65726574746f; 0x6e6572766f;
  0x6e657373756e6f; 0x6e657474756e6f; 0x6e65757472616c65; 0x6e657665; 0x6e6576726f7469636f; 0x6e696363686961; 0x6e696e6661; 0x6e697469646f;
  0x6e6f62696c65; 0x6e6f6369766f; 0x6e6f646f; 0x6e6f6d65; 0x6e6f6d696e61; 0x6e6f726469636f; 0x6e6f726d616c65; 0x6e6f72766567657365;
  0x6e6f737472616e6f; 0x6e6f74617265; 0x6e6f74697a6961; 0x6e6f747475726e6f; 0x6e6f76656c6c61; 0x6e75636c656f; 0x6e756c6c61; 0x6e756d65726f;
  0x6e756f766f; 0x6e757472697265; 0x6e75766f6c61; 0x6e757a69616c65; 0x6f617369; 0x6f62626564697265; 0x6f62626c69676f; 0x6f62656c6973636f;
  0x6f626c696f; 0x6f626f6c6f; 0x6f62736f6c65746f; 0x6f63636173696f6e65; 0x6f636368696f; 0x6f63636964656e7465; 0x6f63636f7272657265; 0x6f6363756c74617265;
  0x6f637261; 0x6f63756c61746f; 0x6f646965726e6f; 0x6f646f72617265; 0x6f666665727461; 0x6f666672697265; 0x6f666675736361746f; 0x6f67676574746f;
  0x6f676769; 0x6f676e756e6f; 0x6f6c616e64657365; 0x6f6c666174746f; 0x6f6c6961746f; 0x6f6c697661; 0x6f6c6f6772616d6d61; 0x6f6c747265;
  0x6f6d616767696f; 0x6f6d62656c69636f; 0x6f6d627261; 0x6f6d656761; 0x6f6d697373696f6e65; 0x6f6e646f736f; 0x6f6e657265; 0x6f6e696365;
  0x6f6e6e69766f726f; 0x6f6e6f7265766f6c65; 0x6f6e7461; 0x6f70657261746f; 0x6f70696e696f6e65; 0x6f70706f73746f; 0x6f7261636f6c6f; 0x6f7261666f;
  0x6f7264696e65; 0x6f7265636368696e6f; 0x6f726566696365; 0x6f7266616e6f; 0x6f7267616e69636f; 0x6f726967696e65; 0x6f72697a7a6f6e7465; 0x6f726d61;
  0x6f726d656767696f; 0x6f726e617469766f; 0x6f726f6c6f67696f; 0x6f7272656e646f; 0x6f72726962696c65; 0x6f7274656e736961; 0x6f7274696361; 0x6f727a617461;
  0x6f727a6f; 0x6f73617265; 0x6f73637572617265; 0x6f736d6f7369; 0x6f73706564616c65; 0x6f7370697465; 0x6f737361; 0x6f73736964617265;
  0x6f737461636f6c6f; 0x6f737465; 0x6f74697465; 0x6f747265; 0x6f747461676f6e6f; 0x6f7474696d6f; 0x6f74746f627265; 0x6f76616c65;
  0x6f76657374; 0x6f76696e6f; 0x6f76697061726f; 0x6f766f6369746f; 0x6f76756e717565; 0x6f767669617265; 0x6f7a696f; 0x70616363686574746f;
  0x70616365; 0x706163696669636f; 0x706164656c6c61; 0x706164726f6e65; 0x7061657365; 0x70616761; 0x706167696e61; 0x70616c617a7a696e61;
  0x70616c6573617265; 0x70616c6c69646f; 0x70616c6f; 0x70616c756465; 0x70616e646f726f; 0x70616e6e656c6c6f; 0x70616f6c6f; 0x70616f6e617a7a6f;
  0x70617072696361; 0x70617261626f6c61; 0x70617263656c6c61; 0x706172657265; 0x706172676f6c6f; 0x70617269; 0x7061726c61746f; 0x7061726f6c61;
  0x70617274697265; 0x70617276656e7a61; 0x7061727a69616c65; 0x7061737369766f; 0x7061737469636361; 0x70617461636361; 0x7061746f6c6f676961; 0x70617474756d65;
  0x7061766f6e65; 0x7065636361746f; 0x706564616c617265; 0x7065646f6e616c65; 0x70656767696f; 0x70656c6f736f; 0x70656e617265; 0x70656e64696365;
  0x70656e69736f6c61; 0x70656e6e75746f; 0x70656e6f6d627261; 0x70656e73617265; 0x70656e746f6c61; 0x70657065; 0x706570697461; 0x70657262656e65;
  0x706572636f72736f; 0x706572646f6e61746f; 0x706572666f72617265; 0x70657267616d656e61; 0x706572696f646f; 0x7065726d6573736f; 0x7065726e6f; 0x706572706c6573736f;
  0x706572737561736f; 0x706572747567696f; 0x7065727661736f; 0x70657361746f7265; 0x70657369737461; 0x7065736f; 0x70657374696665726f; 0x706574616c6f;
  0x70657474696e65; 0x706574756c616e7465; 0x70657a7a6f; 0x70696163657265; 0x7069616e7461; 0x7069617474696e6f; 0x70696363696e6f; 0x7069636f7a7a61;
  0x7069656761; 0x706965747261; 0x7069666665726f; 0x70696769616d61; 0x7069676f6c696f; 0x706967726f; 0x70696c61; 0x70696c696665726f;
  0x70696c6c6f6c61; 0x70696c6f7461; 0x70696d70616e7465; 0x70696e657461; 0x70696e6e61; 0x70696e6f6c6f; 0x70696f67676961; 0x70696f6d626f;
  0x706972616d696465; 0x706972657469636f; 0x706972697465; 0x7069726f6c697369; 0x7069746f6e65; 0x70697a7a69636f; 0x706c616365626f; 0x706c616e617265;
  0x706c61736d61; 0x706c6174616e6f; 0x706c656e6172696f; 0x706f6368657a7a61; 0x706f6465726f736f; 0x706f6469736d6f; 0x706f65736961; 0x706f676769617265;
  0x706f6c656e7461; 0x706f6c69676f6e6f; 0x706f6c6c696365; 0x706f6c6d6f6e697465; 0x706f6c7065747461; 0x706f6c736f; 0x706f6c74726f6e61; 0x706f6c76657265;
  0x706f6d696365; 0x706f6d6f646f726f; 0x706f6e7465; 0x706f706f6c6f736f; 0x706f726669646f; 0x706f726f736f; 0x706f72706f7261; 0x706f727265;
  0x706f7274617461; 0x706f7361; 0x706f73697469766f; 0x706f73736573736f; 0x706f7374756c61746f; 0x706f74617373696f; 0x706f74657265; 0x7072616e7a6f;
  0x707261737369; 0x70726174696361; 0x707265636c75736f; 0x70726564696361; 0x707265666973736f; 0x707265676961746f; 0x7072656c6965766f; 0x7072656d657265;
  0x7072656e6f74617265; 0x70726570617261746f; 0x70726573656e7a61; 0x707265746573746f; 0x70726576616c736f; 0x7072696d61; 0x7072696e63697065; 0x7072697661746f;
  0x70726f626c656d61; 0x70726f63757261; 0x70726f6475727265; 0x70726f66756d6f; 0x70726f676574746f; 0x70726f6c756e6761; 0x70726f6d65737361; 0x70726f6e6f6d65;
  0x70726f706f737461; 0x70726f726f6761; 0x70726f7465736f; 0x70726f7661; 0x70727564656e7465; 0x707275676e61; 0x7072757269746f; 0x707369636865;
  0x707562626c69636f; 0x707564696361; 0x707567696c61746f; 0x7075676e6f; 0x70756c6365; 0x70756c69746f; 0x70756c73616e7465; 0x70756e74617265;
  0x707570617a7a6f; 0x707570696c6c61; 0x7075726f; 0x71756164726f; 0x7175616c636f7361; 0x7175617369; 0x71756572656c61; 0x71756f7461;
  0x726163636f6c746f; 0x726164646f7070696f; 0x7261646963616c65; 0x726164756e61746f; 0x72616666696361; 0x726167617a7a6f; 0x726167696f6e65; 0x7261676e6f;
  0x72616d6172726f; 0x72616d696e676f; 0x72616d6f; 0x72616e646167696f; 0x72616e746f6c617265; 0x72617061746f; 0x726170696e61; 0x726170707265736f;
  0x7261736174757261; 0x72617363686961746f; 0x726173656e7465; 0x7261737365676e61; 0x7261737472656c6c6f; 0x72617461; 0x72617676656475746f; 0x7265616c65;
  0x7265636570697265; 0x726563696e746f; 0x7265636c757461; 0x7265636f6e6469746f; 0x726563757065726f; 0x7265646469746f; 0x726564696d657265; 0x726567616c61746f;
  0x726567697374726f; 0x7265676f6c61; 0x726567726573736f; 0x72656c617a696f6e65; 0x72656d617265; 0x72656d6f746f; 0x72656e6e61; 0x7265706c696361;
  0x72657072696d657265; 0x7265707574617265; 0x72657361; 0x7265736964656e7465; 0x726573706f6e736f; 0x726573746175726f; 0x72657465; 0x726574696e61;
  0x7265746f72696361; 0x726574746966696361; 0x7265766f6361746f; 0x7269617373756e746f; 0x7269626164697265; 0x726962656c6c65; 0x72696272657a7a6f; 0x7269636172696361;
  0x726963636f; 0x7269636576657265; 0x72696369636c61746f; 0x7269636f72646f; 0x72696372656475746f; 0x72696469636f6c6f; 0x72696475727265; 0x7269666173617265;
  0x7269666c6573736f; 0x7269666f726d61; 0x7269667567696f; 0x726967617265; 0x72696765747461746f; 0x72696768656c6c6f; 0x72696c61737361746f; 0x72696c657661746f;
  0x72696d616e657265; 0x72696d62616c7a6f; 0x72696d6564696f; 0x72696d6f726368696f; 0x72696e617363697461; 0x72696e6361726f; 0x72696e666f727a6f; 0x72696e6e6f766f;
  0x72696e6f6d61746f; 0x72696e73617669746f; 0x72696e746f63636f; 0x72696e756e636961; 0x72696e76656e697265; 0x726970617261746f; 0x726970657475746f; 0x72697069656e6f;
  0x7269706f7274617265; 0x72697072657361; 0x726970756c697265; 0x726973617461; 0x7269736368696f; 0x72697365727661; 0x7269736962696c65; 0x7269736f;
  0x726973706574746f; 0x726973746f726f; 0x726973756c7461746f; 0x726973766f6c746f; 0x7269746172646f; 0x72697465676e6f; 0x7269746d69636f; 0x726974726f766f;
  0x7269756e696f6e65; 0x72697661; 0x7269766572736f; 0x726976696e63697461; 0x7269766f6c746f; 0x72697a6f6d61; 0x726f6261; 0x726f626f7469636f;
  0x726f627573746f; 0x726f63636961; 0x726f636f; 0x726f64616767696f; 0x726f64657265; 0x726f6469746f7265; 0x726f6769746f; 0x726f6c6c696f;
  0x726f6d616e7469636f; 0x726f6d70657265; 0x726f6e7a696f; 0x726f736f6c617265; 0x726f73706f; 0x726f74616e7465; 0x726f746f6e646f; 0x726f74756c61;
  0x726f76657363696f; 0x727562697a7a6f; 0x72756272696361; 0x72756761; 0x72756c6c696e6f; 0x72756d696e65; 0x72756d6f726f736f; 0x72756f6c6f;
  0x72757065; 0x72757373617265; 0x7275737469636f; 0x73616261746f; 0x7361626269617265; 0x7361626f7461746f; 0x7361676f6d61; 0x73616c6173736f;
  0x73616c646174757261; 0x73616c67656d6d61; 0x73616c6976617265; 0x73616c6d6f6e65; 0x73616c6f6e65; 0x73616c74617265; 0x73616c75746f; 0x73616c766f;
  0x736170657265; 0x73617069646f; 0x7361706f7269746f; 0x7361726163656e6f; 0x7361726361736d6f; 0x736172746f; 0x736173736f736f; 0x736174656c6c697465;
  0x736174697261; 0x7361746f6c6c6f; 0x73617475726e6f; 0x736176616e61; 0x736176696f; 0x73617a6961746f; 0x7362616469676c696f; 0x7362616c7a6f;
  0x7362616e6361746f; 0x736261727261; 0x7362617474657265; 0x73626176617265; 0x7362656e64617265; 0x736269726369617265; 0x73626c6f636361746f; 0x73626f63636961746f;
  0x736272696e617265; 0x7362727566666f6e65; 0x7362756666617265; 0x73636162726f736f; 0x73636164656e7a61; 0x7363616c61; 0x7363616d6269617265; 0x7363616e64616c6f;
  0x736361706f6c61; 0x73636172736f; 0x73636174656e617265; 0x7363617661746f; 0x7363656c746f; 0x7363656e69636f; 0x7363657474726f; 0x736368656461;
  0x73636869656e61; 0x73636961727061; 0x736369656e7a61; 0x7363696e64657265; 0x73636970706f; 0x736369726f70706f; 0x736369766f6c6f; 0x73636c6572617265;
  0x73636f64656c6c61; 0x73636f6c7069746f; 0x73636f6d706172746f; 0x73636f6e666f72746f; 0x73636f7072697265; 0x73636f727461; 0x73636f73736f6e65; 0x73636f7a7a657365;
  0x736372696261; 0x7363726f6c6c617265; 0x7363727574696e696f; 0x7363756465726961; 0x7363756c746f7265; 0x7363756f6c61; 0x736375726f; 0x73637573617265;
  0x736465626974617265; 0x73646f67616e617265; 0x736563636174757261; 0x7365636f6e646f; 0x736564616e6f; 0x73656767696f6c61; 0x7365676e616c61746f; 0x73656772656761746f;
  0x7365677569746f; 0x73656c636961746f; 0x73656c65747469766f; 0x73656c6c61; 0x73656c76616767696f; 0x73656d61666f726f; 0x73656d6272617265; 0x73656d65;
  0x73656d696e61746f; 0x73656d707265; 0x73656e736f; 0x73656e74697265; 0x7365706f6c746f; 0x73657175656e7a61; 0x736572617461; 0x7365726261746f;
  0x736572656e6f; 0x736572696f; 0x73657270656e7465; 0x7365727261676c696f; 0x73657276697265; 0x73657374696e61; 0x7365746f6c61; 0x73657474696d616e61;
  0x73666163656c6f; 0x7366616c64617265; 0x7366616d61746f; 0x736661727a6f736f; 0x73666174696361746f; 0x7366657261; 0x7366696461; 0x7366696c61746f;
  0x7366696e6765; 0x73666f6361746f; 0x73666f646572617265; 0x73666f676f; 0x73666f6c74697265; 0x73666f727a61746f; 0x7366726174746f; 0x73667275747461746f;
  0x736675676769746f; 0x7366756d617265; 0x736675736f; 0x73676162656c6c6f; 0x736761726261746f; 0x73676f6e6669617265; 0x73676f7262696f; 0x73677261737361746f;
  0x7367756172646f; 0x736962696c6f; 0x736963636f6d65; 0x736965727261; 0x7369676c61; 0x7369676e6f7265; 0x73696c656e7a696f; 0x73696c6c616261;
  0x73696d626f6c6f; 0x73696d70617469636f; 0x73696d756c61746f; 0x73696e666f6e6961; 0x73696e676f6c6f; 0x73696e697374726f; 0x73696e6f; 0x73696e74657369;
  0x73696e75736f696465; 0x7369706172696f; 0x7369736d61; 0x736973746f6c65; 0x7369747561746f; 0x736c69747461; 0x736c6f676174757261; 0x736c6f76656e6f;
  0x736d61727269746f; 0x736d656d6f7261746f; 0x736d656e7469746f; 0x736d6572616c646f; 0x736d696c7a6f; 0x736d6f6e74617265; 0x736d6f747461746f; 0x736d75737361746f;
  0x736e656c6c697265; 0x736e65727661746f; 0x736e6f646f; 0x736f6262616c7a6f; 0x736f6272696f; 0x736f63636f72736f; 0x736f6369616c65; 0x736f64616c65;
  0x736f66666974746f; 0x736f676e6f; 0x736f6c6461746f; 0x736f6c656e6e65; 0x736f6c69646f; 0x736f6c6c617a7a6f; 0x736f6c6f; 0x736f6c7562696c65;
  0x736f6c76656e7465; 0x736f6d617469636f; 0x736f6d6d61; 0x736f6e6461; 0x736f6e6574746f; 0x736f6e6e696665726f; 0x736f70697265; 0x736f707065736f;
  0x736f707261; 0x736f7267657265; 0x736f72706173736f; 0x736f727269736f; 0x736f72736f; 0x736f7274656767696f; 0x736f72766f6c61746f; 0x736f737069726f;
  0x736f737461; 0x736f7474696c65; 0x7370616461; 0x7370616c6c61; 0x7370617267657265; 0x737061746f6c61; 0x73706176656e746f; 0x7370617a7a6f6c61;
  0x737065636965; 0x73706564697265; 0x737065676e657265; 0x7370656c6174757261; 0x73706572616e7a61; 0x73706573736f7265; 0x737065747472616c65; 0x7370657a7a61746f;
  0x73706961; 0x737069676f6c6f736f; 0x7370696c6c61746f; 0x7370696e6f736f; 0x73706972616c65; 0x73706c656e6469646f; 0x73706f727469766f; 0x73706f736f;
  0x737072616e6761; 0x7370726563617265; 0x7370726f6e61746f; 0x737072757a7a6f; 0x7370756e74696e6f; 0x737175696c6c6f; 0x737261646963617265; 0x73726f746f6c61746f;
  0x73746162696c65; 0x73746163636f; 0x737461666661; 0x737461676e617265; 0x7374616d7061746f; 0x7374616e74696f; 0x737461726e75746f; 0x73746173657261;
  0x7374617475746f; 0x7374656c6f; 0x737465707061; 0x737465727a6f; 0x7374696c6574746f; 0x7374696d61; 0x737469727065; 0x73746976616c65;
  0x7374697a7a6f736f; 0x73746f6e61746f; 0x73746f7269636f; 0x7374726170706f; 0x737472656761746f; 0x7374726964756c6f; 0x7374726f7a7a617265; 0x7374727574746f;
  0x7374756363617265; 0x737475666f; 0x73747570656e646f; 0x737562656e74726f; 0x737563636f736f; 0x7375646f7265; 0x73756767657269746f; 0x7375676f;
  0x73756c74616e6f; 0x73756f6e617265; 0x7375706572626f; 0x737570706f72746f; 0x73757267656c61746f; 0x737572726f6761746f; 0x737573737572726f; 0x737574757261;
  0x73766167617265; 0x73766564657365; 0x737665676c696f; 0x7376656c617265; 0x7376656e75746f; 0x7376657a6961; 0x7376696c7570706f; 0x737669737461;
  0x7376697a7a657261; 0x73766f6c7461; 0x7376756f74617265; 0x7461626163636f; 0x746162756c61746f; 0x7461636369617265; 0x746163697475726e6f; 0x74616c65;
  0x74616c69736d616e6f; 0x74616d706f6e65; 0x74616e6e696e6f; 0x74617261; 0x7461726469766f; 0x7461726761746f; 0x74617269666661; 0x74617270617265;
  0x746172746172756761; 0x746173746f; 0x7461747469636f; 0x74617665726e61; 0x7461766f6c617461; 0x74617a7a61; 0x74656361; 0x7465636e69636f;
  0x74656c65666f6e6f; 0x74656d65726172696f; 0x74656d706f; 0x74656d75746f; 0x74656e646f6e65; 0x74656e65726f; 0x74656e73696f6e65; 0x74656e7461636f6c6f;
  0x74656f72656d61; 0x7465726d65; 0x74657272617a7a6f; 0x7465727a6574746f; 0x74657369; 0x74657373657261746f; 0x7465737461746f; 0x746574726f;
  0x746574746f6961; 0x746966617265; 0x746967656c6c61; 0x74696d62726f; 0x74696e746f; 0x74697069636f; 0x7469706f677261666f; 0x746972616767696f;
  0x7469726f; 0x746974616e696f; 0x7469746f6c6f; 0x7469747562616e7465; 0x74697a696f; 0x74697a7a6f6e65; 0x746f6363617265; 0x746f6c6c6572617265;
  0x746f6c746f; 0x746f6d626f6c61; 0x746f6d6f; 0x746f6e666f; 0x746f6e73696c6c61; 0x746f70617a696f; 0x746f706f6c6f676961; 0x746f707061;
  0x746f726261; 0x746f726e617265; 0x746f72726f6e65; 0x746f72746f7261; 0x746f7363616e6f; 0x746f7373697265; 0x746f73746174757261; 0x746f74616e6f;
  0x747261626f63636f; 0x74726163686561; 0x74726166696c61; 0x7472616765646961; 0x7472616c63696f; 0x7472616d6f6e746f; 0x7472616e7369746f; 0x74726170616e6f;
  0x747261727265; 0x747261736c6f636f; 0x747261747461746f; 0x7472617665; 0x74726563636961; 0x7472656d6f6c696f; 0x74726573706f6c6f; 0x7472696275746f;
  0x747269636865636f; 0x747269666f676c696f; 0x7472696c6c6f; 0x7472696e636561; 0x7472696f; 0x7472697374657a7a61; 0x74726974757261746f; 0x74726976656c6c61;
  0x74726f6d6261; 0x74726f6e6f; 0x74726f70706f; 0x74726f74746f6c61; 0x74726f76617265; 0x747275636361746f; 0x7475626174757261; 0x7475666661746f;
  0x74756c6970616e6f; 0x74756d756c746f; 0x74756e69736961; 0x74757262617265; 0x7475726368696e6f; 0x74757461; 0x747574656c61; 0x7562696361746f;
  0x756363656c6c6f; 0x75636369736f7265; 0x7564697265; 0x7564697469766f; 0x75666661; 0x7566666963696f; 0x756775616c65; 0x756c69737365;
  0x756c74696d61746f; 0x756d616e6f; 0x756d696c65; 0x756d6f7269736d6f; 0x756e63696e6574746f; 0x756e67657265; 0x756e67686572657365; 0x756e69636f726e6f;
  0x756e6966696361746f; 0x756e69736f6e6f; 0x756e69746172696f; 0x756e7465; 0x756f766f; 0x7570757061; 0x75726167616e6f; 0x757267656e7a61;
  0x75726c6f; 0x7573616e7a61; 0x757361746f; 0x75736369746f; 0x757369676e6f6c6f; 0x7573757261696f; 0x7574656e73696c65; 0x7574696c697a7a6f;
  0x75746f706961; 0x766163616e7465; 0x76616363696e61746f; 0x76616761626f6e646f; 0x7661676c6961746f; 0x76616c616e6761; 0x76616c676f; 0x76616c69636f;
  0x76616c6c65747461; 0x76616c6f726f736f; 0x76616c7574617265; 0x76616c766f6c61; 0x76616d70617461; 0x76616e67617265; 0x76616e69746f736f; 0x76616e6f;
  0x76616e74616767696f; 0x76616e76657261; 0x7661706f7265; 0x766172616e6f; 0x7661726361746f; 0x76617269616e7465; 0x7661736361; 0x76656465747461;
  0x7665646f7661; 0x76656475746f; 0x7665676574616c65; 0x766569636f6c6f; 0x76656c63726f; 0x76656c696e61; 0x76656c6c75746f; 0x76656c6f6365;
  0x76656e61746f; 0x76656e64656d6d6961; 0x76656e746f; 0x766572616365; 0x76657262616c65; 0x766572676f676e61; 0x7665726966696361; 0x7665726f;
  0x76657272756361; 0x766572746963616c65; 0x76657363696361; 0x76657373696c6c6f; 0x76657374616c65; 0x7665746572616e6f; 0x76657472696e61; 0x7665747573746f;
  0x7669616e64616e7465; 0x76696272616e7465; 0x766963656e6461; 0x76696368696e676f; 0x766963696e616e7a61; 0x766964696d617265; 0x766967696c6961; 0x7669676e65746f;
  0x7669676f7265; 0x76696c65; 0x76696c6c616e6f; 0x76696d696e69; 0x76696e6369746f7265; 0x76696f6c61; 0x766970657261; 0x766972676f6c61;
  0x7669726f6c6f676f; 0x766972756c656e746f; 0x766973636f736f; 0x766973696f6e65; 0x766973706f; 0x7669737375746f; 0x766973757261; 0x76697461;
  0x766974656c6c6f; 0x76697474696d61; 0x766976616e6461; 0x76697669646f; 0x76697a69617265; 0x766f6365; 0x766f6761; 0x766f6c6174696c65;
  0x766f6c657265; 0x766f6c7065; 0x766f726167696e65; 0x76756c63616e6f; 0x7a616d706f676e61; 0x7a616e6e61; 0x7a61707061746f; 0x7a617474657261;
  0x7a61766f727261; 0x7a656669726f; 0x7a656c616e7465; 0x7a656c6f; 0x7a656e7a65726f; 0x7a657262696e6f; 0x7a69626574746f; 0x7a696e636f;
  0x7a6972636f6e65; 0x7a6974746f; 0x7a6f6c6c61; 0x7a6f7469636f; 0x7a7563636865726f; 0x7a75666f6c6f; 0x7a756c75; 0x7a75707061].

(** bip39_dictionary.hpp:12382-14566 *)
Definition dict_japanese : list Z := [
  0xe38182e38184e38193e3818fe38197e38293; 0xe38182e38184e38195e381a4; 0xe38182e38184e3819fe38299; 0xe38182e3818ae3819de38299e38289; 0xe38182e3818be381a1e38283e38293; 0xe38182e3818de3828b; 0xe38182e38191e3818be38299e3819f; 0xe38182e38191e3828b;
  0xe38182e38193e3818be38299e3828ce3828b; 0xe38182e38195e38184; 0xe38182e38195e381b2; 0xe38182e38197e38182e381a8; 0xe38182e38197e38299e3828fe38186; 0xe38182e38199e38299e3818be3828b; 0xe38182e38199e38299e3818d; 0xe38182e3819de381b5e38299;
  0xe38182e3819fe38188e3828b; 0xe38182e3819fe3819fe38281e3828b; 0xe38182e3819fe3828ae381bee38188; 0xe38182e3819fe3828b; 0xe38182e381a4e38184; 0xe38182e381a4e3818be38186; 0xe38182e381a3e38197e38285e3818f; 0xe38182e381a4e381bee3828a;
  0xe38182e381a4e38281e3828b; 0xe38182e381a6e381aa; 0xe38182e381a6e381afe381bee3828b; 0xe38182e381b2e3828b; 0xe38182e381b5e38299e38289; 0xe38182e381b5e38299e3828b; 0xe38182e381b5e3828ce3828b; 0xe38182e381bee38184;
  0xe38182e381bee381a8e38299; 0xe38182e381bee38284e3818be38199; 0xe38182e381bee3828a; 0xe38182e381bfe38282e381ae; 0xe38182e38281e3828ae3818b; 0xe38182e38284e381bee3828b; 0xe38182e38286e38280; 0xe38182e38289e38184e3818fe38299e381be;
  0xe38182e38289e38197; 0xe38182e38289e38199e38197e38299; 0xe38182e38289e3819fe38281e3828b; 0xe38182e38289e38286e3828b; 0xe38182e38289e3828fe38199; 0xe38182e3828ae3818be38299e381a8e38186; 0xe38182e3828fe3819be3828b; 0xe38182e3828fe381a6e3828b;
  0xe38182e38293e38184; 0xe38182e38293e3818be38299e38184; 0xe38182e38293e38193; 0xe38182e38293e3819be38299e38293; 0xe38182e38293e381a6e38184; 0xe38182e38293e381aae38184; 0xe38182e38293e381bee3828a; 0xe38184e38184e3819fe38299e38199;
  0xe38184e3818ae38293; 0xe38184e3818be38299e38184; 0xe38184e3818be38299e3818f; 0xe38184e3818de3818ae38184; 0xe38184e3818de381aae3828a; 0xe38184e3818de38282e381ae; 0xe38184e3818de3828b; 0xe38184e3818fe38197e38299;
  0xe38184e3818fe381b5e38299e38293; 0xe38184e38191e381afe38299e381aa; 0xe38184e38191e38293; 0xe38184e38193e38186; 0xe38184e38193e3818f; 0xe38184e38193e381a4; 0xe38184e38195e381bee38197e38184; 0xe38184e38195e38293;
  0xe38184e38197e3818d; 0xe38184e38197e38299e38285e38186; 0xe38184e38197e38299e38287e38186; 0xe38184e38197e38299e3828fe3828b; 0xe38184e38199e38299e381bf; 0xe38184e38199e38299e3828c; 0xe38184e3819be38184; 0xe38184e3819be38188e381b2e38299;
  0xe38184e3819be3818be38184; 0xe38184e3819be3818d; 0xe38184e3819be38299e38293; 0xe38184e3819de38186e3828de38186; 0xe38184e3819de3818be38299e38197e38184; 0xe38184e3819fe38299e38184; 0xe38184e3819fe38299e3818f; 0xe38184e3819fe38199e38299e38289;
  0xe38184e3819fe381bf; 0xe38184e3819fe3828ae38182; 0xe38184e381a1e3818ae38186; 0xe38184e381a1e38197e38299; 0xe38184e381a1e381a8e38299; 0xe38184e381a1e381afe38299; 0xe38184e381a1e381b5e38299; 0xe38184e381a1e3828ae38285e38186;
  0xe38184e381a4e3818b; 0xe38184e381a3e38197e38285e38293; 0xe38184e381a3e3819be38184; 0xe38184e381a3e3819de38186; 0xe38184e381a3e3819fe38293; 0xe38184e381a3e381a1; 0xe38184e381a3e381a6e38184; 0xe38184e381a3e381bbe3829ae38186;
  0xe38184e381a6e38195e38299; 0xe38184e381a6e38293; 0xe38184e381a8e38299e38186; 0xe38184e381a8e38193; 0xe38184e381aae38184; 0xe38184e381aae3818b; 0xe38184e381ade38280e3828a; 0xe38184e381aee381a1;
  0xe38184e381aee3828b; 0xe38184e381afe381a4; 0xe38184e381afe38299e3828b; 0xe38184e381afe38293; 0xe38184e381b2e38299e3818d; 0xe38184e381b2e38293; 0xe38184e381b5e3818f; 0xe38184e381b8e38293;
  0xe38184e381bbe38186; 0xe38184e381bfe38293; 0xe38184e38282e38186e381a8; 0xe38184e38282e3819fe3828c; 0xe38184e38282e3828a; 0xe38184e38284e3818be38299e3828b; 0xe38184e38284e38199; 0xe38184e38288e3818be38293;
  0xe38184e38288e3818f; 0xe38184e38289e38184; 0xe38184e38289e38199e381a8; 0xe38184e3828ae3818fe38299e381a1; 0xe38184e3828ae38287e38186; 0xe38184e3828ce38184; 0xe38184e3828ce38282e381ae; 0xe38184e3828ce3828b;
  0xe38184e3828de38188e38293e381b2e3829ae381a4; 0xe38184e3828fe38184; 0xe38184e3828fe38186; 0xe38184e3828fe3818be38293; 0xe38184e3828fe381afe38299; 0xe38184e3828fe38286e3828b; 0xe38184e38293e38191e38299e38293e381bee38281; 0xe38184e38293e38195e381a4;
  0xe38184e38293e38197e38287e38186; 0xe38184e38293e38288e38186; 0xe38186e38188e3818d; 0xe38186e38188e3828b; 0xe38186e3818ae38195e38299; 0xe38186e3818be38299e38184; 0xe38186e3818be381b5e38299; 0xe38186e3818be381b8e38299e3828b;
  0xe38186e3818de3828f; 0xe38186e3818fe38289e38184e381aa; 0xe38186e3818fe3828ce3828c; 0xe38186e38191e3819fe381bee3828fe3828b; 0xe38186e38191e381a4e38191; 0xe38186e38191e381a8e3828b; 0xe38186e38191e38282e381a4; 0xe38186e38191e3828b;
  0xe38186e38193e38299e3818be38199; 0xe38186e38193e38299e3818f; 0xe38186e38193e38293; 0xe38186e38195e3818de38299; 0xe38186e38197e381aae38186; 0xe38186e38197e3828de3818be38299e381bf; 0xe38186e38199e38184; 0xe38186e38199e3818de38299;
  0xe38186e38199e3818fe38299e38289e38184; 0xe38186e38199e38281e3828b; 0xe38186e3819be381a4; 0xe38186e381a1e38182e3828fe3819b; 0xe38186e381a1e3818be38299e3828f; 0xe38186e381a1e3818d; 0xe38186e381a1e38285e38186; 0xe38186e381a3e3818be3828a;
  0xe38186e381a4e3818fe38197e38184; 0xe38186e381a3e3819fe38188e3828b; 0xe38186e381a4e3828b; 0xe38186e381a8e38299e38293; 0xe38186e381aae3818de38299; 0xe38186e381aae38197e38299; 0xe38186e381aae38199e38299e3818f; 0xe38186e381aae3828b;
  0xe38186e381ade3828b; 0xe38186e381aee38186; 0xe38186e381b5e38299e38191e38299; 0xe38186e381b5e38299e38193e38299e38188; 0xe38186e381bee3828ce3828b; 0xe38186e38281e3828b; 0xe38186e38282e38186; 0xe38186e38284e381bee38186;
  0xe38186e38288e3818f; 0xe38186e38289e3818be38299e38188e38199; 0xe38186e38289e3818fe38299e381a1; 0xe38186e38289e381aae38184; 0xe38186e3828ae38182e38191e38299; 0xe38186e3828ae3818de3828c; 0xe38186e3828be38195e38184; 0xe38186e3828ce38197e38184;
  0xe38186e3828ce38286e3818d; 0xe38186e3828ce3828b; 0xe38186e3828de38193; 0xe38186e3828fe3818d; 0xe38186e3828fe38195; 0xe38186e38293e38193e38186; 0xe38186e38293e381a1e38293; 0xe38186e38293e381a6e38293;
  0xe38186e38293e381a8e38299e38186; 0xe38188e38184e38188e38293; 0xe38188e38184e3818be38299; 0xe38188e38184e3818de38287e38186; 0xe38188e38184e38193e38299; 0xe38188e38184e3819be38184; 0xe38188e38184e381b5e38299e38293; 0xe38188e38184e38288e38186;
  0xe38188e38184e3828f; 0xe38188e3818ae3828a; 0xe38188e3818be38299e3818a; 0xe38188e3818be38299e3818f; 0xe38188e3818de3819fe38184; 0xe38188e3818fe3819be3828b; 0xe38188e38197e38283e3818f; 0xe38188e38199e381a6;
  0xe38188e381a4e38289e38293; 0xe38188e381aee3818fe38299; 0xe38188e381bbe38186e381bee3818d; 0xe38188e381bbe38293; 0xe38188e381bee3818d; 0xe38188e38282e38197e38299; 0xe38188e38282e381ae; 0xe38188e38289e38184;
  0xe38188e38289e381b5e38299; 0xe38188e3828ae38182; 0xe38188e38293e38188e38293; 0xe38188e38293e3818be38184; 0xe38188e38293e3818de38299; 0xe38188e38293e38191e38299e3818d; 0xe38188e38293e38197e38285e38186; 0xe38188e38293e3819be38299e381a4;
  0xe38188e38293e3819de3818f; 0xe38188e38293e381a1e38287e38186; 0xe38188e38293e381a8e381a4; 0xe3818ae38184e3818be38191e3828b; 0xe3818ae38184e38193e38199; 0xe3818ae38184e38197e38184; 0xe3818ae38184e381a4e3818f; 0xe3818ae38186e38188e38293;
  0xe3818ae38186e38195e381be; 0xe3818ae38186e38197e38299; 0xe3818ae38186e3819be381a4; 0xe3818ae38186e3819fe38184; 0xe3818ae38186e381b5e3818f; 0xe3818ae38186e381b8e38299e38184; 0xe3818ae38186e38288e38186; 0xe3818ae38188e3828b;
  0xe3818ae3818ae38184; 0xe3818ae3818ae38186; 0xe3818ae3818ae381a8e38299e3818ae3828a; 0xe3818ae3818ae38284; 0xe3818ae3818ae38288e3819d; 0xe3818ae3818be38188e3828a; 0xe3818ae3818be38199e38299; 0xe3818ae3818be38299e38280;
  0xe3818ae3818be3828fe3828a; 0xe3818ae3818de38299e381aae38186; 0xe3818ae3818de3828b; 0xe3818ae3818fe38195e381be; 0xe3818ae3818fe38197e38299e38287e38186; 0xe3818ae3818fe3828ae3818be38299e381aa; 0xe3818ae3818fe3828b; 0xe3818ae3818fe3828ce3828b;
  0xe3818ae38193e38199; 0xe3818ae38193e381aae38186; 0xe3818ae38193e3828b; 0xe3818ae38195e38188e3828b; 0xe3818ae38195e381aae38184; 0xe3818ae38195e38281e3828b; 0xe3818ae38197e38184e3828c; 0xe3818ae38197e38188e3828b;
  0xe3818ae38197e38299e3818de38299; 0xe3818ae38197e38299e38195e38293; 0xe3818ae38197e38283e3828c; 0xe3818ae3819de38289e3818f; 0xe3818ae3819de3828fe3828b; 0xe3818ae3819fe3818be38299e38184; 0xe3818ae3819fe3818f; 0xe3818ae3819fe38299e38284e3818b;
  0xe3818ae381a1e381a4e3818f; 0xe3818ae381a3e381a8; 0xe3818ae381a4e3828a; 0xe3818ae381a6e38299e3818be38191; 0xe3818ae381a8e38197e38282e381ae; 0xe3818ae381a8e381aae38197e38184; 0xe3818ae381a8e38299e3828a; 0xe3818ae381a8e38299e3828de3818be38199;
  0xe3818ae381afe38299e38195e38293; 0xe3818ae381bee38184e3828a; 0xe3818ae38281e381a6e38299e381a8e38186; 0xe3818ae38282e38184e381a6e38299; 0xe3818ae38282e38186; 0xe3818ae38282e3819fe38184; 0xe3818ae38282e381a1e38283; 0xe3818ae38284e381a4;
  0xe3818ae38284e38286e381b2e38299; 0xe3818ae38288e381bbe38299e38199; 0xe3818ae38289e38293e3819fe38299; 0xe3818ae3828de38199; 0xe3818ae38293e3818be38299e3818f; 0xe3818ae38293e38191e38184; 0xe3818ae38293e38197e38283; 0xe3818ae38293e3819be38293;
  0xe3818ae38293e3819fe38299e38293; 0xe3818ae38293e381a1e38285e38186; 0xe3818ae38293e381a8e38299e38191e38184; 0xe3818be38182e381a4; 0xe3818be38184e3818be38299; 0xe3818be38299e38184e3818d; 0xe3818be38299e38184e38191e38293; 0xe3818be38299e38184e38193e38186;
  0xe3818be38184e38195e381a4; 0xe3818be38184e38197e38283; 0xe3818be38184e38199e38184e38288e3818f; 0xe3818be38184e3819be38299e38293; 0xe3818be38184e3819de38299e38186e381a8e38299; 0xe3818be38184e381a4e38186; 0xe3818be38184e381a6e38293; 0xe3818be38184e381a8e38186;
  0xe3818be38184e381b5e3818f; 0xe3818be38299e38184e381b8e3818d; 0xe3818be38184e381bbe38186; 0xe3818be38184e38288e38186; 0xe3818be38299e38184e38289e38184; 0xe3818be38184e3828f; 0xe3818be38188e3828b; 0xe3818be3818ae3828a;
  0xe3818be3818be38188e3828b; 0xe3818be3818be38299e3818f; 0xe3818be3818be38299e38197; 0xe3818be3818be38299e381bf; 0xe3818be3818fe38193e38299; 0xe3818be3818fe381a8e3818f; 0xe3818be38195e38299e3828b; 0xe3818be38299e3819de38299e38186;
  0xe3818be3819fe38184; 0xe3818be3819fe381a1; 0xe3818be38299e381a1e38287e38186; 0xe3818be38299e381a3e3818de38285e38186; 0xe3818be38299e381a3e38193e38186; 0xe3818be38299e381a3e38195e38293; 0xe3818be38299e381a3e38197e38287e38186; 0xe3818be381aae38195e38299e3828fe38197;
  0xe3818be381aee38186; 0xe3818be38299e381afe3818f; 0xe3818be381b5e38299e3818b; 0xe3818be381bbe38186; 0xe3818be381bbe38193e38299; 0xe3818be381bee38186; 0xe3818be381bee381bbe38299e38193; 0xe3818be38281e3828ce3818ae38293;
  0xe3818be38286e38184; 0xe3818be38288e38186e381b2e38299; 0xe3818be38289e38184; 0xe3818be3828be38184; 0xe3818be3828de38186; 0xe3818be3828fe3818f; 0xe3818be3828fe38289; 0xe3818be38299e38293e3818b;
  0xe3818be38293e38191e38184; 0xe3818be38293e38193e38186; 0xe3818be38293e38197e38283; 0xe3818be38293e3819de38186; 0xe3818be38293e3819fe38293; 0xe3818be38293e381a1; 0xe3818be38299e38293e381afe38299e3828b; 0xe3818de38182e38184;
  0xe3818de38182e381a4; 0xe3818de38184e3828d; 0xe3818de38299e38184e38293; 0xe3818de38186e38184; 0xe3818de38186e38293; 0xe3818de38188e3828b; 0xe3818de3818ae38186; 0xe3818de3818ae3818f;
  0xe3818de3818ae381a1; 0xe3818de3818ae38293; 0xe3818de3818be38184; 0xe3818de3818be3818f; 0xe3818de3818be38293e38197e38283; 0xe3818de3818de381a6; 0xe3818de3818fe381afe38299e3828a; 0xe3818de3818fe38289e38191e38299;
  0xe3818de38191e38293e3819be38184; 0xe3818de38193e38186; 0xe3818de38193e38188e3828b; 0xe3818de38193e3818f; 0xe3818de38195e38184; 0xe3818de38195e3818f; 0xe3818de38195e381be; 0xe3818de38195e38289e3818de38299;
  0xe3818de38299e38197e38299e3818be3818be38299e3818f; 0xe3818de38299e38197e3818d; 0xe3818de38299e38197e38299e3819fe38184e38191e38293; 0xe3818de38299e38197e38299e381abe381a3e381a6e38184; 0xe3818de38299e38197e38299e38285e381a4e38197e38283; 0xe3818de38199e38186; 0xe3818de3819be38184; 0xe3818de3819be3818d;
  0xe3818de3819be381a4; 0xe3818de3819de38186; 0xe3818de3819de38299e3818f; 0xe3818de3819de38299e38293; 0xe3818de3819fe38188e3828b; 0xe3818de381a1e38287e38186; 0xe3818de381a4e38188e38293; 0xe3818de38299e381a3e381a1e3828a;
  0xe3818de381a4e381a4e3818d; 0xe3818de381a4e381ad; 0xe3818de381a6e38184; 0xe3818de381a8e38299e38186; 0xe3818de381a8e38299e3818f; 0xe3818de381aae38184; 0xe3818de381aae3818be38299; 0xe3818de381aae38193;
  0xe3818de381ace38193e38299e38197; 0xe3818de381ade38293; 0xe3818de381aee38186; 0xe3818de381aee38197e3819f; 0xe3818de381afe3818f; 0xe3818de381b2e38299e38197e38184; 0xe3818de381b2e38293; 0xe3818de381b5e3818f;
  0xe3818de381b5e38299e38293; 0xe3818de381bbe38299e38186; 0xe3818de381bbe38293; 0xe3818de381bee3828b; 0xe3818de381bfe381a4; 0xe3818de38280e38199e38299e3818be38197e38184; 0xe3818de38281e3828b; 0xe3818de38282e3819fe38299e38281e38197;
  0xe3818de38282e381a1; 0xe3818de38282e381ae; 0xe3818de38283e3818f; 0xe3818de38284e3818f; 0xe3818de38299e38285e38186e381abe3818f; 0xe3818de38288e38186; 0xe3818de38287e38186e3828ae38285e38186; 0xe3818de38289e38184;
  0xe3818de38289e3818f; 0xe3818de3828ae38293; 0xe3818de3828ce38184; 0xe3818de3828ce381a4; 0xe3818de3828de3818f; 0xe3818de38299e3828de38293; 0xe3818de3828fe38281e3828b; 0xe3818de38299e38293e38184e3828d;
  0xe3818de38293e3818be3818fe38197e38299; 0xe3818de38293e38197e38299e38287; 0xe3818de38293e38288e38186e381b2e38299; 0xe3818fe38299e38182e38184; 0xe3818fe38184e38199e38299; 0xe3818fe38186e3818be38293; 0xe3818fe38186e3818d; 0xe3818fe38186e3818fe38299e38293;
  0xe3818fe38186e38193e38186; 0xe3818fe38299e38186e3819be38184; 0xe3818fe38186e3819de38186; 0xe3818fe38299e38186e3819fe38289; 0xe3818fe38186e381b5e3818f; 0xe3818fe38186e381bbe38299; 0xe3818fe3818be38293; 0xe3818fe3818de38287e38186;
  0xe3818fe38191e38299e38293; 0xe3818fe38299e38193e38186; 0xe3818fe38195e38184; 0xe3818fe38195e3818d; 0xe3818fe38195e381afe38299e381aa; 0xe3818fe38195e3828b; 0xe3818fe38197e38283e381bf; 0xe3818fe38197e38287e38186;
  0xe3818fe38199e381aee3818d; 0xe3818fe38199e3828ae38286e381b2e38299; 0xe3818fe3819be38191e38299; 0xe3818fe3819be38293; 0xe3818fe38299e3819fe38184e381a6e3818d; 0xe3818fe3819fe38299e38195e3828b; 0xe3818fe3819fe381b2e38299e3828ce3828b; 0xe3818fe381a1e38193e381bf;
  0xe3818fe381a1e38195e3818d; 0xe3818fe381a4e38197e3819f; 0xe3818fe38299e381a3e38199e3828a; 0xe3818fe381a4e3828de3818fe38299; 0xe3818fe381a8e38186e381a6e38293; 0xe3818fe381a8e38299e3818f; 0xe3818fe381aae38293; 0xe3818fe381ade3818fe381ad;
  0xe3818fe381aee38186; 0xe3818fe381b5e38186; 0xe3818fe381bfe38182e3828fe3819b; 0xe3818fe381bfe3819fe381a6e3828b; 0xe3818fe38281e3828b; 0xe3818fe38284e3818fe38197e38287; 0xe3818fe38289e38199; 0xe3818fe38289e381b8e38299e3828b;
  0xe3818fe3828be381be; 0xe3818fe3828ce3828b; 0xe3818fe3828de38186; 0xe3818fe3828fe38197e38184; 0xe3818fe38299e38293e3818be38293; 0xe3818fe38299e38293e38197e38287e3818f; 0xe3818fe38299e38293e3819fe38184; 0xe3818fe38299e38293e381a6;
  0xe38191e38182e381aa; 0xe38191e38184e3818be3818f; 0xe38191e38184e38191e38293; 0xe38191e38184e38193; 0xe38191e38184e38195e381a4; 0xe38191e38299e38184e38197e38299e38285e381a4; 0xe38191e38184e3819fe38184; 0xe38191e38299e38184e381aee38186e38197e38299e38293;
  0xe38191e38184e3828ce3818d; 0xe38191e38184e3828d; 0xe38191e3818ae381a8e38199; 0xe38191e3818ae3828ae38282e381ae; 0xe38191e38299e3818de3818b; 0xe38191e38299e3818de38191e38299e38293; 0xe38191e38299e3818de3819fe38299e38293; 0xe38191e38299e3818de381a1e38293;
  0xe38191e38299e3818de381a8e381a4; 0xe38191e38299e3818de381af; 0xe38191e38299e3818de38284e3818f; 0xe38191e38299e38193e38186; 0xe38191e38299e38193e3818fe38197e38299e38287e38186; 0xe38191e38299e38195e38299e38184; 0xe38191e38195e3818d; 0xe38191e38299e38195e38299e38293;
  0xe38191e38197e3818d; 0xe38191e38197e38193e38299e38280; 0xe38191e38197e38287e38186; 0xe38191e38299e38199e381a8; 0xe38191e3819fe381afe38299; 0xe38191e381a1e38283e381a3e381b5e3829a; 0xe38191e381a1e38289e38199; 0xe38191e381a4e38182e381a4;
  0xe38191e381a4e38184; 0xe38191e381a4e38188e3818d; 0xe38191e381a3e38193e38293; 0xe38191e381a4e38197e38299e38287; 0xe38191e381a3e3819be3818d; 0xe38191e381a3e381a6e38184; 0xe38191e381a4e381bee381a4; 0xe38191e38299e381a4e38288e38186e381b2e38299;
  0xe38191e38299e381a4e3828ce38184; 0xe38191e381a4e3828de38293; 0xe38191e38299e381a8e38299e3818f; 0xe38191e381a8e381afe38299e38199; 0xe38191e381a8e3828b; 0xe38191e381aae38191e38299; 0xe38191e381aae38199; 0xe38191e381aae381bf;
  0xe38191e381ace3818d; 0xe38191e38299e381ade381a4; 0xe38191e381ade38293; 0xe38191e381afe38184; 0xe38191e38299e381b2e38293; 0xe38191e381b5e38299e3818be38184; 0xe38191e38299e381bbe38299e3818f; 0xe38191e381bee3828a;
  0xe38191e381bfe3818be3828b; 0xe38191e38280e38197; 0xe38191e38280e3828a; 0xe38191e38282e381ae; 0xe38191e38289e38184; 0xe38191e3828de38191e3828d; 0xe38191e3828fe38197e38184; 0xe38191e38293e38184;
  0xe38191e38293e38188e381a4; 0xe38191e38293e3818a; 0xe38191e38293e3818b; 0xe38191e38299e38293e3818d; 0xe38191e38293e38191e38299e38293; 0xe38191e38293e38193e38186; 0xe38191e38293e38195e3818f; 0xe38191e38293e38197e38285e38186;
  0xe38191e38293e38199e38186; 0xe38191e38299e38293e3819de38186; 0xe38191e38293e381a1e3818f; 0xe38191e38293e381a6e38184; 0xe38191e38293e381a8e38186; 0xe38191e38293e381aae38184; 0xe38191e38293e381abe38293; 0xe38191e38299e38293e381b5e38299e381a4;
  0xe38191e38293e381be; 0xe38191e38293e381bfe38293; 0xe38191e38293e38281e38184; 0xe38191e38293e38289e38293; 0xe38191e38293e3828a; 0xe38193e38182e3818fe381be; 0xe38193e38184e381ac; 0xe38193e38184e381b2e38299e381a8;
  0xe38193e38299e38186e38184; 0xe38193e38186e38188e38293; 0xe38193e38186e3818ae38293; 0xe38193e38186e3818be38293; 0xe38193e38299e38186e3818de38285e38186; 0xe38193e38299e38186e38191e38184; 0xe38193e38186e38193e38186; 0xe38193e38186e38195e38184;
  0xe38193e38186e38197e38299; 0xe38193e38186e38199e38184; 0xe38193e38299e38186e3819be38184; 0xe38193e38186e3819de3818f; 0xe38193e38186e3819fe38184; 0xe38193e38186e381a1e38283; 0xe38193e38186e381a4e38186; 0xe38193e38186e381a6e38184;
  0xe38193e38186e381a8e38299e38186; 0xe38193e38186e381aae38184; 0xe38193e38186e381afe38184; 0xe38193e38299e38186e381bbe38186; 0xe38193e38299e38186e381bee38293; 0xe38193e38186e38282e3818f; 0xe38193e38186e3828ae381a4; 0xe38193e38188e3828b;
  0xe38193e3818ae3828a; 0xe38193e38299e3818be38184; 0xe38193e38299e3818be38299e381a4; 0xe38193e38299e3818be38293; 0xe38193e3818fe38193e38299; 0xe38193e3818fe38195e38184; 0xe38193e3818fe381a8e38186; 0xe38193e3818fe381aae38184;
  0xe38193e3818fe381afe3818f; 0xe38193e3818fe38299e381be; 0xe38193e38191e38184; 0xe38193e38191e3828b; 0xe38193e38193e381aee3818b; 0xe38193e38193e3828d; 0xe38193e38195e38281; 0xe38193e38197e381a4;
  0xe38193e38199e38186; 0xe38193e3819be38184; 0xe38193e3819be3818d; 0xe38193e3819be38299e38293; 0xe38193e3819de3819fe38299e381a6; 0xe38193e3819fe38184; 0xe38193e3819fe38188e3828b; 0xe38193e3819fe381a4;
  0xe38193e381a1e38287e38186; 0xe38193e381a3e3818b; 0xe38193e381a4e38193e381a4; 0xe38193e381a4e381afe38299e38293; 0xe38193e381a4e381b5e38299; 0xe38193e381a6e38184; 0xe38193e381a6e38293; 0xe38193e381a8e3818be38299e38289;
  0xe38193e381a8e38197; 0xe38193e381a8e381afe38299; 0xe38193e381a8e3828a; 0xe38193e381aae38193e38299e381aa; 0xe38193e381ade38193e381ad; 0xe38193e381aee381bee381be; 0xe38193e381aee381bf; 0xe38193e381aee38288;
  0xe38193e38299e381afe38293; 0xe38193e381b2e381a4e38197e38299; 0xe38193e381b5e38186; 0xe38193e381b5e38293; 0xe38193e381bbe38299e3828ce3828b; 0xe38193e38299e381bee38182e381b5e38299e38289; 0xe38193e381bee3818be38184; 0xe38193e38299e381bee38199e3828a;
  0xe38193e381bee381a4e381aa; 0xe38193e381bee3828b; 0xe38193e38280e3818de38299e38193; 0xe38193e38282e38197e38299; 0xe38193e38282e381a1; 0xe38193e38282e381ae; 0xe38193e38282e38293; 0xe38193e38284e3818f;
  0xe38193e38284e381be; 0xe38193e38286e38186; 0xe38193e38286e381b2e38299; 0xe38193e38288e38184; 0xe38193e38288e38186; 0xe38193e3828ae3828b; 0xe38193e3828ce3818fe38197e38287e38293; 0xe38193e3828de381a3e38191;
  0xe38193e3828fe38282e381a6; 0xe38193e3828fe3828ce3828b; 0xe38193e38293e38184e38293; 0xe38193e38293e3818be38184; 0xe38193e38293e3818d; 0xe38193e38293e38197e38285e38186; 0xe38193e38293e38199e38184; 0xe38193e38293e3819fe38299e381a6;
  0xe38193e38293e381a8e38293; 0xe38193e38293e381aae38293; 0xe38193e38293e381b2e38299e381ab; 0xe38193e38293e381bbe3829ae38293; 0xe38193e38293e381bee38191; 0xe38193e38293e38284; 0xe38193e38293e3828ce38184; 0xe38193e38293e3828fe3818f;
  0xe38195e38299e38184e38188e3818d; 0xe38195e38184e3818be38184; 0xe38195e38184e3818de38293; 0xe38195e38299e38184e38191e38299e38293; 0xe38195e38299e38184e38193; 0xe38195e38184e38197e38287; 0xe38195e38184e3819be38184; 0xe38195e38299e38184e3819fe3818f;
  0xe38195e38299e38184e381a1e38285e38186; 0xe38195e38184e381a6e3818d; 0xe38195e38299e38184e3828ae38287e38186; 0xe38195e38186e381aa; 0xe38195e3818be38184e38197; 0xe38195e3818be38299e38199; 0xe38195e3818be381aa; 0xe38195e3818be381bfe381a1;
  0xe38195e3818be38299e3828b; 0xe38195e3818de38299e38287e38186; 0xe38195e3818fe38197; 0xe38195e3818fe381b2e38293; 0xe38195e3818fe38289; 0xe38195e38193e3818f; 0xe38195e38193e381a4; 0xe38195e38199e38299e3818be3828b;
  0xe38195e38299e3819be3818d; 0xe38195e3819fe38293; 0xe38195e381a4e38188e38184; 0xe38195e38299e381a4e3818ae38293; 0xe38195e38299e381a3e3818b; 0xe38195e38299e381a4e3818be38299e3818f; 0xe38195e381a3e3818de38287e3818f; 0xe38195e38299e381a3e38197;
  0xe38195e381a4e38197e38299e38293; 0xe38195e38299e381a3e3819de38186; 0xe38195e381a4e3819fe381afe38299; 0xe38195e381a4e381bee38184e38282; 0xe38195e381a6e38184; 0xe38195e381a8e38184e38282; 0xe38195e381a8e38186; 0xe38195e381a8e3818ae38284;
  0xe38195e381a8e38197; 0xe38195e381a8e3828b; 0xe38195e381aee38186; 0xe38195e381afe38299e3818f; 0xe38195e381b2e38299e38197e38184; 0xe38195e381b8e38299e381a4; 0xe38195e381bbe38186; 0xe38195e381bbe381a8e38299;
  0xe38195e381bee38199; 0xe38195e381bfe38197e38184; 0xe38195e381bfe3819fe38299e3828c; 0xe38195e38280e38191; 0xe38195e38281e3828b; 0xe38195e38284e38188e38293e381a8e38299e38186; 0xe38195e38286e38186; 0xe38195e38288e38186;
  0xe38195e38288e3818f; 0xe38195e38289e3819fe38299; 0xe38195e38299e3828be3819de381afe38299; 0xe38195e3828fe38284e3818b; 0xe38195e3828fe3828b; 0xe38195e38293e38184e38293; 0xe38195e38293e3818b; 0xe38195e38293e3818de38283e3818f;
  0xe38195e38293e38193e38186; 0xe38195e38293e38195e38184; 0xe38195e38299e38293e38197e38287; 0xe38195e38293e38199e38186; 0xe38195e38293e3819be38184; 0xe38195e38293e3819d; 0xe38195e38293e381a1; 0xe38195e38293e381be;
  0xe38195e38293e381bf; 0xe38195e38293e38289e38293; 0xe38197e38182e38184; 0xe38197e38182e38191e38299; 0xe38197e38182e38195e381a3e381a6; 0xe38197e38182e3828fe3819b; 0xe38197e38184e3818f; 0xe38197e38184e38293;
  0xe38197e38186e381a1; 0xe38197e38188e38184; 0xe38197e3818ae38191; 0xe38197e3818be38184; 0xe38197e3818be3818f; 0xe38197e38299e3818be38293; 0xe38197e38193e38299e381a8; 0xe38197e38199e38186;
  0xe38197e38299e3819fe38299e38184; 0xe38197e3819fe38186e38191; 0xe38197e3819fe3818de38299; 0xe38197e3819fe381a6; 0xe38197e3819fe381bf; 0xe38197e381a1e38287e38186; 0xe38197e381a1e3828ae38293; 0xe38197e381a3e3818be3828a;
  0xe38197e381a4e38197e38299; 0xe38197e381a4e38282e38293; 0xe38197e381a6e38184; 0xe38197e381a6e3818d; 0xe38197e381a6e381a4; 0xe38197e38299e381a6e38293; 0xe38197e38299e381a8e38299e38186; 0xe38197e381aae3818de38299e3828c;
  0xe38197e381aae38282e381ae; 0xe38197e381aae38293; 0xe38197e381ade381be; 0xe38197e381ade38293; 0xe38197e381aee3818fe38299; 0xe38197e381aee381b5e38299; 0xe38197e381afe38184; 0xe38197e381afe38299e3818be3828a;
  0xe38197e381afe381a4; 0xe38197e381afe38289e38184; 0xe38197e381afe38293; 0xe38197e381b2e38287e38186; 0xe38197e381b5e3818f; 0xe38197e38299e381b5e38299e38293; 0xe38197e381b8e38184; 0xe38197e381bbe38186;
  0xe38197e381bbe38293; 0xe38197e381bee38186; 0xe38197e381bee3828b; 0xe38197e381bfe38293; 0xe38197e38280e38191e3828b; 0xe38197e38299e38280e38197e38287; 0xe38197e38281e38184; 0xe38197e38281e3828b;
  0xe38197e38282e38293; 0xe38197e38283e38184e38293; 0xe38197e38283e38186e38293; 0xe38197e38283e3818ae38293; 0xe38197e38299e38283e3818be38299e38184e38282; 0xe38197e38284e3818fe38197e38287; 0xe38197e38283e3818fe381bbe38186; 0xe38197e38283e38191e38293;
  0xe38197e38283e38193; 0xe38197e38283e38195e38299e38184; 0xe38197e38283e38197e38293; 0xe38197e38283e3819be38293; 0xe38197e38283e3819de38186; 0xe38197e38283e3819fe38184; 0xe38197e38283e381a1e38287e38186; 0xe38197e38283e381a3e3818de38293;
  0xe38197e38299e38283e381be; 0xe38197e38283e3828ae38293; 0xe38197e38283e3828ce38184; 0xe38197e38299e38286e38186; 0xe38197e38299e38285e38186e38197e38287; 0xe38197e38285e3818fe381afe3818f; 0xe38197e38299e38285e38197e38293; 0xe38197e38285e381a3e3819be3818d;
  0xe38197e38285e381bf; 0xe38197e38285e38289e381afe38299; 0xe38197e38299e38285e38293e381afe38299e38293; 0xe38197e38287e38186e3818be38184; 0xe38197e38287e3818fe3819fe3818f; 0xe38197e38287e381a3e38191e38293; 0xe38197e38287e381a8e38299e38186; 0xe38197e38287e38282e381a4;
  0xe38197e38289e3819be3828b; 0xe38197e38289e381b8e38299e3828b; 0xe38197e38293e3818b; 0xe38197e38293e38193e38186; 0xe38197e38299e38293e38197e38299e38283; 0xe38197e38293e3819be38184e38197e38299; 0xe38197e38293e381a1e3818f; 0xe38197e38293e3828ae38293;
  0xe38199e38182e38191e38299; 0xe38199e38182e38197; 0xe38199e38182e381aa; 0xe38199e38299e38182e38293; 0xe38199e38184e38188e38184; 0xe38199e38184e3818b; 0xe38199e38184e381a8e38186; 0xe38199e38299e38184e381b5e38299e38293;
  0xe38199e38184e38288e38186e381b2e38299; 0xe38199e38186e3818be38299e3818f; 0xe38199e38186e38197e38299e381a4; 0xe38199e38186e3819be38293; 0xe38199e3818ae381a8e38299e3828a; 0xe38199e3818de381be; 0xe38199e3818fe38186; 0xe38199e3818fe381aae38184;
  0xe38199e38191e3828b; 0xe38199e38193e38299e38184; 0xe38199e38193e38197; 0xe38199e38299e38195e38293; 0xe38199e38199e38299e38197e38184; 0xe38199e38199e38280; 0xe38199e38199e38281e3828b; 0xe38199e381a3e3818be3828a;
  0xe38199e38299e381a3e38197e3828a; 0xe38199e38299e381a3e381a8; 0xe38199e381a6e3818d; 0xe38199e381a6e3828b; 0xe38199e381ade3828b; 0xe38199e381aee38193; 0xe38199e381afe3819fe38299; 0xe38199e381afe38299e38289e38197e38184;
  0xe38199e38299e381b2e38287e38186; 0xe38199e38299e381b5e38299e381ace3828c; 0xe38199e381b5e38299e3828a; 0xe38199e381b5e3828c; 0xe38199e381b8e38299e381a6; 0xe38199e381b8e38299e3828b; 0xe38199e38299e381bbe38186; 0xe38199e381bbe38299e38293;
  0xe38199e381bee38184; 0xe38199e38281e38197; 0xe38199e38282e38186; 0xe38199e38284e3818d; 0xe38199e38289e38199e38289; 0xe38199e3828be38281; 0xe38199e3828ce381a1e3818be38299e38186; 0xe38199e3828de381a3e381a8;
  0xe38199e3828fe3828b; 0xe38199e38293e3819be38299e38293; 0xe38199e38293e381bbe3829ae38186; 0xe3819be38182e381b5e38299e38289; 0xe3819be38184e3818be381a4; 0xe3819be38184e38191e38299e38293; 0xe3819be38184e38197e38299; 0xe3819be38184e38288e38186;
  0xe3819be3818ae38186; 0xe3819be3818be38184e3818be38293; 0xe3819be3818de381abe38293; 0xe3819be3818de38280; 0xe3819be3818de38286; 0xe3819be3818de38289e38293e38186e38293; 0xe3819be38191e38293; 0xe3819be38193e38186;
  0xe3819be38199e38197e38299; 0xe3819be3819fe38184; 0xe3819be3819fe38191; 0xe3819be381a3e3818be3818f; 0xe3819be381a3e3818de38283e3818f; 0xe3819be38299e381a3e3818f; 0xe3819be381a3e38191e38293; 0xe3819be381a3e38193e381a4;
  0xe3819be381a3e38195e3819fe3818fe381be; 0xe3819be381a4e3819de38299e3818f; 0xe3819be381a4e3819fe38299e38293; 0xe3819be381a4e381a6e38299e38293; 0xe3819be381a3e381afe3829ae38293; 0xe3819be381a4e381b2e38299; 0xe3819be381a4e381b5e38299e38293; 0xe3819be381a4e38281e38184;
  0xe3819be381a4e3828ae381a4; 0xe3819be381aae3818b; 0xe3819be381aee381b2e38299; 0xe3819be381afe381afe38299; 0xe3819be381b2e38299e3828d; 0xe3819be381bbe38299e381ad; 0xe3819be381bee38184; 0xe3819be381bee3828b;
  0xe3819be38281e3828b; 0xe3819be38282e3819fe3828c; 0xe3819be3828ae381b5; 0xe3819be38299e38293e38182e3818f; 0xe3819be38293e38184; 0xe3819be38293e38188e38184; 0xe3819be38293e3818b; 0xe3819be38293e3818de38287;
  0xe3819be38293e3818f; 0xe3819be38293e38191e38299e38293; 0xe3819be38299e38293e38193e38299; 0xe3819be38293e38195e38184; 0xe3819be38293e38197e38285; 0xe3819be38293e38199e38184; 0xe3819be38293e3819be38184; 0xe3819be38293e3819de38299;
  0xe3819be38293e3819fe3818f; 0xe3819be38293e381a1e38287e38186; 0xe3819be38293e381a6e38184; 0xe3819be38293e381a8e38186; 0xe3819be38293e381ace3818d; 0xe3819be38293e381ade38293; 0xe3819be38293e381afe3829ae38184; 0xe3819be38299e38293e381b5e38299;
  0xe3819be38299e38293e381bbe3829ae38186; 0xe3819be38293e38280; 0xe3819be38293e38281e38293e38197e38299e38287; 0xe3819be38293e38282e38293; 0xe3819be38293e38284e3818f; 0xe3819be38293e38286e38186; 0xe3819be38293e38288e38186; 0xe3819be38299e38293e38289;
  0xe3819be38299e38293e3828ae38283e3818f; 0xe3819be38293e3828ce38184; 0xe3819be38293e3828d; 0xe3819de38182e3818f; 0xe3819de38184e381a8e38191e38299e3828b; 0xe3819de38184e381ad; 0xe3819de38186e3818be38299e38293e3818de38287e38186; 0xe3819de38186e3818d;
  0xe3819de38186e38193e38299; 0xe3819de38186e38197e38293; 0xe3819de38186e3819fe38299e38293; 0xe3819de38186e381aae38293; 0xe3819de38186e381b2e38299; 0xe3819de38186e38281e38293; 0xe3819de38186e3828a; 0xe3819de38188e38282e381ae;
  0xe3819de38188e38293; 0xe3819de3818be38299e38184; 0xe3819de38191e38299e3818d; 0xe3819de38193e38186; 0xe3819de38193e3819de38193; 0xe3819de38195e38299e38184; 0xe3819de38197e381aa; 0xe3819de3819be38184;
  0xe3819de3819be38293; 0xe3819de3819de3818fe38299; 0xe3819de3819fe38299e381a6e3828b; 0xe3819de381a4e38186; 0xe3819de381a4e38188e38293; 0xe3819de381a3e3818be38293; 0xe3819de381a4e3818de38299e38287e38186; 0xe3819de381a3e38191e381a4;
  0xe3819de381a3e38193e38186; 0xe3819de381a3e3819be38293; 0xe3819de381a3e381a8; 0xe3819de381a8e3818be38299e3828f; 0xe3819de381a8e381a4e38299e38289; 0xe3819de381aae38188e3828b; 0xe3819de381aae3819f; 0xe3819de381b5e381bbe38299;
  0xe3819de381bbe38299e3818f; 0xe3819de381bbe38299e3828d; 0xe3819de381bee381a4; 0xe3819de381bee3828b; 0xe3819de38280e3818f; 0xe3819de38280e3828ae38188; 0xe3819de38281e3828b; 0xe3819de38282e3819de38282;
  0xe3819de38288e3818be3819be38299; 0xe3819de38289e381bee38281; 0xe3819de3828de38186; 0xe3819de38293e3818be38184; 0xe3819de38293e38191e38184; 0xe3819de38293e38195e38299e38184; 0xe3819de38293e38197e381a4; 0xe3819de38293e3819de38299e3818f;
  0xe3819de38293e381a1e38287e38186; 0xe3819de38299e38293e381b2e38299; 0xe3819de38299e38293e381b5e38299e38293; 0xe3819de38293e381bfe38293; 0xe3819fe38182e38184; 0xe3819fe38184e38184e38293; 0xe3819fe38184e38186e38293; 0xe3819fe38184e38188e3818d;
  0xe3819fe38184e3818ae38186; 0xe3819fe38299e38184e3818be38299e3818f; 0xe3819fe38184e3818d; 0xe3819fe38184e3818fe38299e38186; 0xe3819fe38184e38191e38293; 0xe3819fe38184e38193; 0xe3819fe38184e38195e38299e38184; 0xe3819fe38299e38184e38197e38299e38287e38186e381b5e38299;
  0xe3819fe38299e38184e38199e3818d; 0xe3819fe38184e3819be381a4; 0xe3819fe38184e3819de38186; 0xe3819fe38299e38184e3819fe38184; 0xe3819fe38184e381a1e38287e38186; 0xe3819fe38184e381a6e38184; 0xe3819fe38299e38184e381a8e38299e38193e3828d; 0xe3819fe38184e381aae38184;
  0xe3819fe38184e381ade381a4; 0xe3819fe38184e381aee38186; 0xe3819fe38184e381afe38293; 0xe3819fe38299e38184e381b2e38287e38186; 0xe3819fe38184e381b5e38186; 0xe3819fe38184e381b8e38293; 0xe3819fe38184e381bb; 0xe3819fe38184e381bee381a4e381afe38299e381aa;
  0xe3819fe38184e381bfe38293e3818fe38299; 0xe3819fe38184e38280; 0xe3819fe38184e38281e38293; 0xe3819fe38184e38284e3818d; 0xe3819fe38184e38288e38186; 0xe3819fe38184e38289; 0xe3819fe38184e3828ae38287e3818f; 0xe3819fe38184e3828b;
  0xe3819fe38184e3828fe38293; 0xe3819fe38186e38188; 0xe3819fe38188e3828b; 0xe3819fe3818ae38199; 0xe3819fe3818ae3828b; 0xe3819fe3818ae3828ce3828b; 0xe3819fe3818be38184; 0xe3819fe3818be381ad;
  0xe3819fe3818de381b2e38299; 0xe3819fe3818fe38195e38293; 0xe3819fe38193e3818f; 0xe3819fe38193e38284e3818d; 0xe3819fe38195e38184; 0xe3819fe38197e38195e38299e38293; 0xe3819fe38299e38197e38299e38283e3828c; 0xe3819fe38199e38191e3828b;
  0xe3819fe38199e38299e38195e3828fe3828b; 0xe3819fe3819de3818be38299e3828c; 0xe3819fe3819fe3818be38186; 0xe3819fe3819fe3818f; 0xe3819fe3819fe38299e38197e38184; 0xe3819fe3819fe381bf; 0xe3819fe381a1e381afe38299e381aa; 0xe3819fe38299e381a3e3818be38184;
  0xe3819fe38299e381a3e3818de38283e3818f; 0xe3819fe38299e381a3e38193; 0xe3819fe38299e381a3e38197e38285e381a4; 0xe3819fe38299e381a3e3819fe38184; 0xe3819fe381a6e3828b; 0xe3819fe381a8e38188e3828b; 0xe3819fe381aae381afe38299e3819f; 0xe3819fe381abe38293;
  0xe3819fe381ace3818d; 0xe3819fe381aee38197e381bf; 0xe3819fe381afe381a4; 0xe3819fe381b5e38299e38293; 0xe3819fe381b8e38299e3828b; 0xe3819fe381bbe38299e38186; 0xe3819fe381bee38193e38299; 0xe3819fe381bee3828b;
  0xe3819fe38299e38280e3828b; 0xe3819fe38281e38184e3818d; 0xe3819fe38281e38199; 0xe3819fe38281e3828b; 0xe3819fe38282e381a4; 0xe3819fe38284e38199e38184; 0xe3819fe38288e3828b; 0xe3819fe38289e38199;
  0xe3819fe3828ae3818de381bbe38293e3818be38299e38293; 0xe3819fe3828ae38287e38186; 0xe3819fe3828ae3828b; 0xe3819fe3828be381a8; 0xe3819fe3828ce3828b; 0xe3819fe3828ce38293e381a8; 0xe3819fe3828de381a3e381a8; 0xe3819fe3828fe38280e3828ce3828b;
  0xe3819fe38299e38293e38182e381a4; 0xe3819fe38293e38184; 0xe3819fe38293e3818ae38293; 0xe3819fe38293e3818b; 0xe3819fe38293e3818d; 0xe3819fe38293e38191e38293; 0xe3819fe38293e38193e38299; 0xe3819fe38293e38195e38293;
  0xe3819fe38293e38197e38299e38287e38186e381b2e38299; 0xe3819fe38299e38293e3819be38184; 0xe3819fe38293e3819de3818f; 0xe3819fe38293e3819fe38184; 0xe3819fe38299e38293e381a1; 0xe3819fe38293e381a6e38184; 0xe3819fe38293e381a8e38186; 0xe3819fe38299e38293e381aa;
  0xe3819fe38293e381abe38293; 0xe3819fe38299e38293e381ade381a4; 0xe3819fe38293e381aee38186; 0xe3819fe38293e381b2e3829ae38293; 0xe3819fe38299e38293e381bbe38299e38186; 0xe3819fe38293e381bee381a4; 0xe3819fe38293e38281e38184; 0xe3819fe38299e38293e3828ce381a4;
  0xe3819fe38299e38293e3828d; 0xe3819fe38299e38293e3828f; 0xe381a1e38182e38184; 0xe381a1e38182e38293; 0xe381a1e38184e3818d; 0xe381a1e38184e38195e38184; 0xe381a1e38188e38293; 0xe381a1e3818be38184;
  0xe381a1e3818be38289; 0xe381a1e3818de38285e38186; 0xe381a1e3818de38293; 0xe381a1e38191e38184e38199e38299; 0xe381a1e38191e38293; 0xe381a1e38193e3818f; 0xe381a1e38195e38184; 0xe381a1e38197e3818d;
  0xe381a1e38197e3828ae38287e38186; 0xe381a1e3819be38184; 0xe381a1e3819de38186; 0xe381a1e3819fe38184; 0xe381a1e3819fe38293; 0xe381a1e381a1e3818ae38284; 0xe381a1e381a4e38197e38299e38287; 0xe381a1e381a6e3818d;
  0xe381a1e381a6e38293; 0xe381a1e381ace3818d; 0xe381a1e381ace3828a; 0xe381a1e381aee38186; 0xe381a1e381b2e38287e38186; 0xe381a1e381b8e38184e3819be38293; 0xe381a1e381bbe38186; 0xe381a1e381bee3819f;
  0xe381a1e381bfe381a4; 0xe381a1e381bfe381a8e38299e3828d; 0xe381a1e38281e38184e381a8e38299; 0xe381a1e38283e38293e38193e381aae381b8e38299; 0xe381a1e38285e38186e38184; 0xe381a1e38286e3828ae38287e3818f; 0xe381a1e38287e38186e38197; 0xe381a1e38287e38195e3818fe38191e38293;
  0xe381a1e38289e38197; 0xe381a1e38289e381bf; 0xe381a1e3828ae3818be38299e381bf; 0xe381a1e3828ae38287e38186; 0xe381a1e3828be381a8e38299; 0xe381a1e3828fe3828f; 0xe381a1e38293e3819fe38184; 0xe381a1e38293e38282e3818f;
  0xe381a4e38184e3818b; 0xe381a4e38184e3819fe381a1; 0xe381a4e38186e3818b; 0xe381a4e38186e38197e38299e38287e38186; 0xe381a4e38186e381afe38293; 0xe381a4e38186e3828f; 0xe381a4e3818be38186; 0xe381a4e3818be3828ce3828b;
  0xe381a4e3818fe381ad; 0xe381a4e3818fe3828b; 0xe381a4e38191e381ad; 0xe381a4e38191e3828b; 0xe381a4e38193e38299e38186; 0xe381a4e3819fe38188e3828b; 0xe381a4e381a4e38299e3818f; 0xe381a4e381a4e38197e38299;
  0xe381a4e381a4e38280; 0xe381a4e381a8e38281e3828b; 0xe381a4e381aae3818be38299e3828b; 0xe381a4e381aae381bf; 0xe381a4e381ade381a4e38299e381ad; 0xe381a4e381aee3828b; 0xe381a4e381b5e38299e38199; 0xe381a4e381bee38289e381aae38184;
  0xe381a4e381bee3828b; 0xe381a4e381bfe3818d; 0xe381a4e38281e3819fe38184; 0xe381a4e38282e3828a; 0xe381a4e38282e3828b; 0xe381a4e38288e38184; 0xe381a4e3828be381bbe38299; 0xe381a4e3828be381bfe3818f;
  0xe381a4e3828fe38282e381ae; 0xe381a4e3828fe3828a; 0xe381a6e38182e38197; 0xe381a6e38182e381a6; 0xe381a6e38182e381bf; 0xe381a6e38184e3818ae38293; 0xe381a6e38184e3818b; 0xe381a6e38184e3818d;
  0xe381a6e38184e38191e38184; 0xe381a6e38184e38193e3818f; 0xe381a6e38184e38195e381a4; 0xe381a6e38184e38197; 0xe381a6e38184e3819be38184; 0xe381a6e38184e3819fe38184; 0xe381a6e38184e381a8e38299; 0xe381a6e38184e381ade38184;
  0xe381a6e38184e381b2e38287e38186; 0xe381a6e38184e381b8e38293; 0xe381a6e38184e381bbe38299e38186; 0xe381a6e38186e381a1; 0xe381a6e3818ae3818fe3828c; 0xe381a6e3818de381a8e38186; 0xe381a6e3818fe381b2e38299; 0xe381a6e38299e38193e381bbe38299e38193;
  0xe381a6e38195e3818de38299e38287e38186; 0xe381a6e38195e38191e38299; 0xe381a6e38199e3828a; 0xe381a6e3819de38186; 0xe381a6e381a1e3818be38299e38184; 0xe381a6e381a1e38287e38186; 0xe381a6e381a4e3818be38299e3818f; 0xe381a6e381a4e381a4e38299e3818d;
  0xe381a6e38299e381a3e381afe3829a; 0xe381a6e381a4e381bbe38299e38186; 0xe381a6e381a4e38284; 0xe381a6e38299e381ace3818be38188; 0xe381a6e381ace3818d; 0xe381a6e381ace3818fe38299e38184; 0xe381a6e381aee381b2e38289; 0xe381a6e381afe38184;
  0xe381a6e381b5e38299e3818fe3828d; 0xe381a6e381b5e3819fe38299; 0xe381a6e381bbe381a8e38299e3818d; 0xe381a6e381bbe38293; 0xe381a6e381bee38188; 0xe381a6e381bee3818de38199e38299e38197; 0xe381a6e381bfe38197e38299e3818b; 0xe381a6e381bfe38284e38191e38299;
  0xe381a6e38289e38199; 0xe381a6e3828ce381b2e38299; 0xe381a6e3828fe38191; 0xe381a6e3828fe3819fe38197; 0xe381a6e38299e38293e38182e381a4; 0xe381a6e38293e38184e38293; 0xe381a6e38293e3818be38184; 0xe381a6e38293e3818d;
  0xe381a6e38293e3818fe38299; 0xe381a6e38293e38191e38293; 0xe381a6e38293e38193e38299e3818f; 0xe381a6e38293e38195e38184; 0xe381a6e38293e38197; 0xe381a6e38293e38199e38186; 0xe381a6e38299e38293e381a1; 0xe381a6e38293e381a6e3818d;
  0xe381a6e38293e381a8e38186; 0xe381a6e38293e381aae38184; 0xe381a6e38293e381b5e3829ae38289; 0xe381a6e38293e381bbe38299e38186e3819fe38299e38184; 0xe381a6e38293e38281e381a4; 0xe381a6e38293e38289e38293e3818be38184; 0xe381a6e38299e38293e3828ae38287e3818f; 0xe381a6e38299e38293e3828f;
  0xe381a8e38299e38182e38184; 0xe381a8e38184e3828c; 0xe381a8e38299e38186e3818be38293; 0xe381a8e38186e3818de38285e38186; 0xe381a8e38299e38186e3818fe38299; 0xe381a8e38186e38197; 0xe381a8e38186e38280e3818de38299; 0xe381a8e3818ae38184;
  0xe381a8e3818ae3818b; 0xe381a8e3818ae3818f; 0xe381a8e3818ae38199; 0xe381a8e3818ae3828b; 0xe381a8e3818be38184; 0xe381a8e3818be38199; 0xe381a8e3818de3818ae3828a; 0xe381a8e3818de381a8e38299e3818d;
  0xe381a8e3818fe38184; 0xe381a8e3818fe38197e38285e38186; 0xe381a8e3818fe381a6e38293; 0xe381a8e3818fe381ab; 0xe381a8e3818fe381b8e38299e381a4; 0xe381a8e38191e38184; 0xe381a8e38191e3828b; 0xe381a8e38193e38284;
  0xe381a8e38195e3818b; 0xe381a8e38197e38287e3818be38293; 0xe381a8e3819de38186; 0xe381a8e3819fe38293; 0xe381a8e381a1e38285e38186; 0xe381a8e381a3e3818de38285e38186; 0xe381a8e381a3e3818fe38293; 0xe381a8e381a4e3819be38299e38293;
  0xe381a8e381a4e381abe38285e38186; 0xe381a8e381a8e38299e38191e3828b; 0xe381a8e381a8e381aee38188e3828b; 0xe381a8e381aae38184; 0xe381a8e381aae38188e3828b; 0xe381a8e381aae3828a; 0xe381a8e381aee38195e381be; 0xe381a8e381afe38299e38199;
  0xe381a8e38299e381b5e38299e3818be38299e3828f; 0xe381a8e381bbe38186; 0xe381a8e381bee3828b; 0xe381a8e38281e3828b; 0xe381a8e38282e3819fe38299e381a1; 0xe381a8e38282e3828b; 0xe381a8e38299e38288e38186e381b2e38299; 0xe381a8e38289e38188e3828b;
  0xe381a8e38293e3818be381a4; 0xe381a8e38299e38293e381b5e38299e3828a; 0xe381aae38184e3818be3818f; 0xe381aae38184e38193e38186; 0xe381aae38184e38197e38287; 0xe381aae38184e38199; 0xe381aae38184e3819be38293; 0xe381aae38184e3819de38186;
  0xe381aae3818ae38199; 0xe381aae3818be38299e38184; 0xe381aae3818fe38199; 0xe381aae38191e38299e3828b; 0xe381aae38193e38186e381a8e38299; 0xe381aae38195e38191; 0xe381aae3819fe381a6e38299e38193e38193; 0xe381aae381a3e381a8e38186;
  0xe381aae381a4e38284e38199e381bf; 0xe381aae381aae3818ae38197; 0xe381aae381abe38193e38299e381a8; 0xe381aae381abe38282e381ae; 0xe381aae381abe3828f; 0xe381aae381aee3818b; 0xe381aae381b5e3819fe38299; 0xe381aae381bee38184e3818d;
  0xe381aae381bee38188; 0xe381aae381bee381bf; 0xe381aae381bfe3819fe38299; 0xe381aae38281e38289e3818b; 0xe381aae38281e3828b; 0xe381aae38284e38280; 0xe381aae38289e38186; 0xe381aae38289e381b2e38299;
  0xe381aae38289e381b5e38299; 0xe381aae3828ce3828b; 0xe381aae3828fe381a8e381b2e38299; 0xe381aae3828fe381afe38299e3828a; 0xe381abe38182e38186; 0xe381abe38184e3818be38299e3819f; 0xe381abe38186e38191; 0xe381abe3818ae38184;
  0xe381abe3818be38184; 0xe381abe3818be38299e381a6; 0xe381abe3818de381b2e38299; 0xe381abe3818fe38197e381bf; 0xe381abe3818fe381bee38293; 0xe381abe38191e38299e3828b; 0xe381abe38195e38293e3818be3819fe38293e3819d; 0xe381abe38197e3818d;
  0xe381abe3819be38282e381ae; 0xe381abe381a1e38197e38299e38287e38186; 0xe381abe381a1e38288e38186e381b2e38299; 0xe381abe381a3e3818b; 0xe381abe381a3e3818d; 0xe381abe381a3e38191e38184; 0xe381abe381a3e38193e38186; 0xe381abe381a3e38195e38293;
  0xe381abe381a3e38197e38287e3818f; 0xe381abe381a3e38199e38186; 0xe381abe381a3e3819be3818d; 0xe381abe381a3e381a6e38184; 0xe381abe381aae38186; 0xe381abe381bbe38293; 0xe381abe381bee38281; 0xe381abe38282e381a4;
  0xe381abe38284e3828a; 0xe381abe38285e38186e38184e38293; 0xe381abe3828ae38293e38197e38283; 0xe381abe3828fe381a8e3828a; 0xe381abe38293e38184; 0xe381abe38293e3818b; 0xe381abe38293e3818d; 0xe381abe38293e38191e38299e38293;
  0xe381abe38293e38197e3818d; 0xe381abe38293e38199e38299e38186; 0xe381abe38293e3819de38186; 0xe381abe38293e3819fe38184; 0xe381abe38293e381a1; 0xe381abe38293e381a6e38184; 0xe381abe38293e381abe3818f; 0xe381abe38293e381b5e3829a;
  0xe381abe38293e381bee3828a; 0xe381abe38293e38280; 0xe381abe38293e38281e38184; 0xe381abe38293e38288e38186; 0xe381ace38184e3818fe3818de38299; 0xe381ace3818be38199; 0xe381ace3818fe38299e38184e381a8e3828b; 0xe381ace3818fe38299e38186;
  0xe381ace3818fe38282e3828a; 0xe381ace38199e38280; 0xe381ace381bee38188e381b2e38299; 0xe381ace38281e3828a; 0xe381ace38289e38199; 0xe381ace38293e381a1e38283e3818f; 0xe381ade38182e38191e38299; 0xe381ade38184e3818d;
  0xe381ade38184e3828b; 0xe381ade38184e3828d; 0xe381ade3818fe38299e3819b; 0xe381ade3818fe3819fe38184; 0xe381ade3818fe38289; 0xe381ade38193e3819be38299; 0xe381ade38193e38280; 0xe381ade38195e38191e38299;
  0xe381ade38199e38193e38299e38199; 0xe381ade3819de381b8e38299e3828b; 0xe381ade3819fe38299e38293; 0xe381ade381a4e38184; 0xe381ade381a3e38197e38293; 0xe381ade381a4e3819de38299e38186; 0xe381ade381a3e3819fe38184e3818de38299e38287; 0xe381ade381b5e38299e3819de3818f;
  0xe381ade381b5e3819fe38299; 0xe381ade381bbe38299e38186; 0xe381ade381bbe3828ae381afe381bbe3828a; 0xe381ade381bee3818d; 0xe381ade381bee3828fe38197; 0xe381ade381bfe381bf; 0xe381ade38280e38184; 0xe381ade38280e3819fe38184;
  0xe381ade38282e381a8; 0xe381ade38289e38186; 0xe381ade3828fe38195e38299; 0xe381ade38293e38184e3828a; 0xe381ade38293e3818ae38197; 0xe381ade38293e3818be38293; 0xe381ade38293e3818de38293; 0xe381ade38293e3818fe38299;
  0xe381ade38293e38195e38299; 0xe381ade38293e38197; 0xe381ade38293e381a1e38283e3818f; 0xe381ade38293e381a8e38299; 0xe381ade38293e381b2e3829a; 0xe381ade38293e381b5e38299e381a4; 0xe381ade38293e381bee381a4; 0xe381ade38293e3828ae38287e38186;
  0xe381ade38293e3828ce38184; 0xe381aee38184e38199e38299; 0xe381aee3818ae381a4e38299e381be; 0xe381aee3818be38299e38199; 0xe381aee3818de381aae381bf; 0xe381aee38193e3818de38299e3828a; 0xe381aee38193e38199; 0xe381aee38193e3828b;
  0xe381aee3819be3828b; 0xe381aee3819de38299e3818f; 0xe381aee3819de38299e38280; 0xe381aee3819fe381bee38186; 0xe381aee381a1e381bbe381a8e38299; 0xe381aee381a3e3818f; 0xe381aee381afe38299e38199; 0xe381aee381afe38289;
  0xe381aee381b8e38299e3828b; 0xe381aee381bbe38299e3828b; 0xe381aee381bfe38282e381ae; 0xe381aee38284e381be; 0xe381aee38289e38184e381ac; 0xe381aee38289e381ade38193; 0xe381aee3828ae38282e381ae; 0xe381aee3828ae38286e3818d;
  0xe381aee3828ce38293; 0xe381aee38293e3818d; 0xe381afe38299e38182e38184; 0xe381afe38182e3818f; 0xe381afe38299e38182e38195e38293; 0xe381afe38299e38184e3818b; 0xe381afe38299e38184e3818f; 0xe381afe38184e38191e38293;
  0xe381afe38184e38193e38299; 0xe381afe38184e38197e38293; 0xe381afe38184e38199e38184; 0xe381afe38184e3819be38293; 0xe381afe38184e3819de38186; 0xe381afe38184e381a1; 0xe381afe38299e38184e381afe38299e38184; 0xe381afe38184e3828ce381a4;
  0xe381afe38188e3828b; 0xe381afe3818ae3828b; 0xe381afe3818be38184; 0xe381afe38299e3818be3828a; 0xe381afe3818be3828b; 0xe381afe3818fe38197e38285; 0xe381afe38191e38293; 0xe381afe38193e381b5e38299;
  0xe381afe38195e381bf; 0xe381afe38195e38293; 0xe381afe38197e38193e38299; 0xe381afe38299e38197e38287; 0xe381afe38197e3828b; 0xe381afe3819be3828b; 0xe381afe3829ae3819de38193e38293; 0xe381afe3819de38293;
  0xe381afe3819fe38293; 0xe381afe381a1e381bfe381a4; 0xe381afe381a4e3818ae38293; 0xe381afe381a3e3818be3818f; 0xe381afe381a4e38299e3818d; 0xe381afe381a3e3818de3828a; 0xe381afe381a3e3818fe381a4; 0xe381afe381a3e38191e38293;
  0xe381afe381a3e38193e38186; 0xe381afe381a3e38195e38293; 0xe381afe381a3e38197e38293; 0xe381afe381a3e3819fe381a4; 0xe381afe381a3e381a1e38285e38186; 0xe381afe381a3e381a6e38293; 0xe381afe381a3e381b2e3829ae38287e38186; 0xe381afe381a3e381bbe3829ae38186;
  0xe381afe381aae38199; 0xe381afe381aae381b2e38299; 0xe381afe381abe3818be38280; 0xe381afe381b5e38299e38289e38197; 0xe381afe381bfe3818be38299e3818d; 0xe381afe38280e3818be38186; 0xe381afe38281e381a4; 0xe381afe38284e38184;
  0xe381afe38284e38197; 0xe381afe38289e38186; 0xe381afe3828de38186e38183e38293; 0xe381afe3828fe38184; 0xe381afe38293e38184; 0xe381afe38293e38188e38184; 0xe381afe38293e3818ae38293; 0xe381afe38293e3818be3818f;
  0xe381afe38293e3818de38287e38186; 0xe381afe38299e38293e3818fe38299e381bf; 0xe381afe38293e38193; 0xe381afe38293e38197e38283; 0xe381afe38293e38199e38186; 0xe381afe38293e3819fe38299e38293; 0xe381afe3829ae38293e381a1; 0xe381afe3829ae38293e381a4;
  0xe381afe38293e381a6e38184; 0xe381afe38293e381a8e38197; 0xe381afe38293e381aee38186; 0xe381afe38293e381afe3829a; 0xe381afe38293e381b5e38299e38293; 0xe381afe38293e381b8e3829ae38293; 0xe381afe38293e381bbe38299e38186e3818d; 0xe381afe38293e38281e38184;
  0xe381afe38293e38289e38293; 0xe381afe38293e3828de38293; 0xe381b2e38184e3818d; 0xe381b2e38186e38293; 0xe381b2e38188e3828b; 0xe381b2e3818be3818f; 0xe381b2e3818be3828a; 0xe381b2e3818be3828b;
  0xe381b2e3818be38293; 0xe381b2e3818fe38184; 0xe381b2e38191e381a4; 0xe381b2e38193e38186e3818d; 0xe381b2e38193e3818f; 0xe381b2e38195e38184; 0xe381b2e38195e38197e381b5e38299e3828a; 0xe381b2e38195e38293;
  0xe381b2e38299e38197e38299e38285e381a4e3818be38293; 0xe381b2e38197e38287; 0xe381b2e3819de3818b; 0xe381b2e3819de38280; 0xe381b2e3819fe38280e3818d; 0xe381b2e3819fe38299e3828a; 0xe381b2e3819fe3828b; 0xe381b2e381a4e3818de38299;
  0xe381b2e381a3e38193e38197; 0xe381b2e381a3e38197; 0xe381b2e381a4e38197e38299e38285e381b2e38293; 0xe381b2e381a3e38199; 0xe381b2e381a4e3819be38299e38293; 0xe381b2e3829ae381a3e3819fe3828a; 0xe381b2e3829ae381a3e381a1e3828a; 0xe381b2e381a4e38288e38186;
  0xe381b2e381a6e38184; 0xe381b2e381a8e38193e38299e381bf; 0xe381b2e381aae381bee381a4e3828a; 0xe381b2e381aae38293; 0xe381b2e381ade3828b; 0xe381b2e381afe38293; 0xe381b2e381b2e38299e3818f; 0xe381b2e381b2e38287e38186;
  0xe381b2e381bbe38186; 0xe381b2e381bee3828fe3828a; 0xe381b2e381bee38293; 0xe381b2e381bfe381a4; 0xe381b2e38281e38184; 0xe381b2e38281e38197e38299e38197; 0xe381b2e38284e38191; 0xe381b2e38284e38199;
  0xe381b2e38288e38186; 0xe381b2e38299e38287e38186e3818d; 0xe381b2e38289e3818be38299e381aa; 0xe381b2e38289e3818f; 0xe381b2e3828ae381a4; 0xe381b2e3828ae38287e38186; 0xe381b2e3828be381be; 0xe381b2e3828be38284e38199e381bf;
  0xe381b2e3828ce38184; 0xe381b2e3828de38184; 0xe381b2e3828de38186; 0xe381b2e3828de3818d; 0xe381b2e3828de38286e3818d; 0xe381b2e38293e3818be3818f; 0xe381b2e38293e38191e381a4; 0xe381b2e38293e38193e38293;
  0xe381b2e38293e38197e38285; 0xe381b2e38293e3819de38186; 0xe381b2e3829ae38293e381a1; 0xe381b2e38293e381afe3829ae38293; 0xe381b2e38299e38293e381bbe38299e38186; 0xe381b5e38182e38293; 0xe381b5e38184e38186e381a1; 0xe381b5e38186e38191e38184;
  0xe381b5e38186e3819be38293; 0xe381b5e3829ae38186e3819fe3828de38186; 0xe381b5e38186e381a8e38186; 0xe381b5e38186e381b5; 0xe381b5e38188e3828b; 0xe381b5e3818ae38293; 0xe381b5e3818be38184; 0xe381b5e3818de38293;
  0xe381b5e3818fe38195e38299e381a4; 0xe381b5e3818fe381b5e38299e3818fe3828d; 0xe381b5e38193e38186; 0xe381b5e38195e38184; 0xe381b5e38197e3818de38299; 0xe381b5e38197e38299e381bf; 0xe381b5e38199e381be; 0xe381b5e3819be38184;
  0xe381b5e3819be3818fe38299; 0xe381b5e3819de3818f; 0xe381b5e38299e3819fe381abe3818f; 0xe381b5e3819fe38293; 0xe381b5e381a1e38287e38186; 0xe381b5e381a4e38186; 0xe381b5e381a4e3818b; 0xe381b5e381a3e3818be381a4;
  0xe381b5e381a3e3818d; 0xe381b5e381a3e38193e3818f; 0xe381b5e38299e381a8e38299e38186; 0xe381b5e381a8e3828b; 0xe381b5e381a8e38293; 0xe381b5e381aee38186; 0xe381b5e381afe38184; 0xe381b5e381b2e38287e38186;
  0xe381b5e381b8e38293; 0xe381b5e381bee38293; 0xe381b5e381bfe38293; 0xe381b5e38281e381a4; 0xe381b5e38281e38293; 0xe381b5e38288e38186; 0xe381b5e3828ae38193; 0xe381b5e3828ae3828b;
  0xe381b5e3828be38184; 0xe381b5e38293e38184e3818d; 0xe381b5e38299e38293e3818be38299e3818f; 0xe381b5e38299e38293e3818fe38299; 0xe381b5e38293e38197e381a4; 0xe381b5e38299e38293e3819be3818d; 0xe381b5e38293e3819de38186; 0xe381b5e38299e38293e381bbe3829ae38186;
  0xe381b8e38184e38182e38293; 0xe381b8e38184e3818ae38293; 0xe381b8e38184e3818be38299e38184; 0xe381b8e38184e3818d; 0xe381b8e38184e38191e38299e38293; 0xe381b8e38184e38193e38186; 0xe381b8e38184e38195; 0xe381b8e38184e38197e38283;
  0xe381b8e38184e3819be381a4; 0xe381b8e38184e3819d; 0xe381b8e38184e3819fe3818f; 0xe381b8e38184e381a6e38293; 0xe381b8e38184e381ade381a4; 0xe381b8e38184e3828f; 0xe381b8e3818de3818be38299; 0xe381b8e38193e38280;
  0xe381b8e38299e381abe38184e3828d; 0xe381b8e38299e381abe38197e38287e38186e3818be38299; 0xe381b8e38289e38199; 0xe381b8e38293e3818be38293; 0xe381b8e38299e38293e3818de38287e38186; 0xe381b8e38299e38293e38193e38299e38197; 0xe381b8e38293e38195e38184; 0xe381b8e38293e3819fe38184;
  0xe381b8e38299e38293e3828a; 0xe381bbe38182e38293; 0xe381bbe38184e3818f; 0xe381bbe38299e38186e3818de38299e38287; 0xe381bbe38186e38193e3818f; 0xe381bbe38186e3819de38186; 0xe381bbe38186e381bbe38186; 0xe381bbe38186e38282e38293;
  0xe381bbe38186e3828ae381a4; 0xe381bbe38188e3828b; 0xe381bbe3818ae38293; 0xe381bbe3818be38293; 0xe381bbe3818de38287e38186; 0xe381bbe38299e3818de38293; 0xe381bbe3818fe3828d; 0xe381bbe38191e381a4;
  0xe381bbe38191e38293; 0xe381bbe38193e38186; 0xe381bbe38193e3828b; 0xe381bbe38197e38184; 0xe381bbe38197e381a4; 0xe381bbe38197e38285; 0xe381bbe38197e38287e38186; 0xe381bbe3819be38184;
  0xe381bbe3819de38184; 0xe381bbe3819de3818f; 0xe381bbe3819fe381a6; 0xe381bbe3819fe3828b; 0xe381bbe3829ae381a1e381b5e38299e3818fe3828d; 0xe381bbe381a3e3818de38287e3818f; 0xe381bbe381a3e38195; 0xe381bbe381a3e3819fe38293;
  0xe381bbe381a8e38293e381a8e38299; 0xe381bbe38281e3828b; 0xe381bbe38293e38184; 0xe381bbe38293e3818d; 0xe381bbe38293e38191; 0xe381bbe38293e38197e381a4; 0xe381bbe38293e38284e3818f; 0xe381bee38184e381abe381a1;
  0xe381bee3818be38184; 0xe381bee3818be3819be3828b; 0xe381bee3818be38299e3828b; 0xe381bee38191e3828b; 0xe381bee38193e381a8; 0xe381bee38195e381a4; 0xe381bee38197e38299e38281; 0xe381bee38199e3818f;
  0xe381bee3819be38299e3828b; 0xe381bee381a4e3828a; 0xe381bee381a8e38281; 0xe381bee381aae381b5e38299; 0xe381bee381ace38191; 0xe381bee381ade3818f; 0xe381bee381bbe38186; 0xe381bee38282e3828b;
  0xe381bee38286e38191e38299; 0xe381bee38288e38186; 0xe381bee3828de38284e3818b; 0xe381bee3828fe38199; 0xe381bee3828fe3828a; 0xe381bee3828fe3828b; 0xe381bee38293e3818be38299; 0xe381bee38293e3818de381a4;
  0xe381bee38293e3819de38299e3818f; 0xe381bee38293e381aae3818b; 0xe381bfe38184e38289; 0xe381bfe38186e381a1; 0xe381bfe38188e3828b; 0xe381bfe3818be38299e3818f; 0xe381bfe3818be3819f; 0xe381bfe3818be38293;
  0xe381bfe38191e38293; 0xe381bfe38193e38293; 0xe381bfe38197e38299e3818be38184; 0xe381bfe38199e38184; 0xe381bfe38199e38188e3828b; 0xe381bfe3819be3828b; 0xe381bfe381a3e3818b; 0xe381bfe381a4e3818be3828b;
  0xe381bfe381a4e38191e3828b; 0xe381bfe381a6e38184; 0xe381bfe381a8e38281e3828b; 0xe381bfe381aae381a8; 0xe381bfe381aae381bfe3818be38195e38184; 0xe381bfe381ade38289e3828b; 0xe381bfe381aee38186; 0xe381bfe381aee3818be38299e38199;
  0xe381bfe381bbe38293; 0xe381bfe38282e381a8; 0xe381bfe38284e38191e38299; 0xe381bfe38289e38184; 0xe381bfe3828ae38287e3818f; 0xe381bfe3828fe3818f; 0xe381bfe38293e3818b; 0xe381bfe38293e3819de38299e3818f;
  0xe38280e38184e3818b; 0xe38280e38188e3818d; 0xe38280e38188e38293; 0xe38280e3818be38184; 0xe38280e3818be38186; 0xe38280e3818be38188; 0xe38280e3818be38197; 0xe38280e3818de38299e381a1e38283;
  0xe38280e38191e3828b; 0xe38280e38191e38299e38293; 0xe38280e38195e381bbe38299e3828b; 0xe38280e38197e38182e381a4e38184; 0xe38280e38197e381afe38299; 0xe38280e38197e38299e38285e38293; 0xe38280e38197e3828d; 0xe38280e38199e38186;
  0xe38280e38199e38193; 0xe38280e38199e381b5e38299; 0xe38280e38199e38281; 0xe38280e3819be3828b; 0xe38280e3819be38293; 0xe38280e381a1e38285e38186; 0xe38280e381aae38197e38184; 0xe38280e381aee38186;
  0xe38280e38284e381bf; 0xe38280e38288e38186; 0xe38280e38289e38195e3818d; 0xe38280e3828ae38287e38186; 0xe38280e3828de38293; 0xe38281e38184e38182e38293; 0xe38281e38184e38186e38293; 0xe38281e38184e38188e38293;
  0xe38281e38184e3818be3818f; 0xe38281e38184e3818de38287e3818f; 0xe38281e38184e38195e38184; 0xe38281e38184e38197; 0xe38281e38184e3819de38186; 0xe38281e38184e381b5e38299e381a4; 0xe38281e38184e3828ce38184; 0xe38281e38184e3828fe3818f;
  0xe38281e3818fe38299e381bee3828ce3828b; 0xe38281e38195e38299e38199; 0xe38281e38197e3819f; 0xe38281e38199e38299e38289e38197e38184; 0xe38281e3819fe38299e381a4; 0xe38281e381bee38184; 0xe38281e38284e38199; 0xe38281e38293e3818de38287;
  0xe38281e38293e3819be3818d; 0xe38281e38293e381a8e38299e38186; 0xe38282e38186e38197e38182e38191e38299e3828b; 0xe38282e38186e381a8e38299e38186e38191e38293; 0xe38282e38188e3828b; 0xe38282e3818fe38197; 0xe38282e3818fe381a6e3818d; 0xe38282e3818fe38288e38186e381b2e38299;
  0xe38282e381a1e3828de38293; 0xe38282e381a8e38299e3828b; 0xe38282e38289e38186; 0xe38282e38293e3818f; 0xe38282e38293e3819fe38299e38184; 0xe38284e3818ae38284; 0xe38284e38191e3828b; 0xe38284e38195e38184;
  0xe38284e38195e38197e38184; 0xe38284e38199e38184; 0xe38284e38199e3819fe3828de38186; 0xe38284e38199e381bf; 0xe38284e3819be3828b; 0xe38284e3819de38186; 0xe38284e3819fe38184; 0xe38284e381a1e38293;
  0xe38284e381a3e381a8; 0xe38284e381a3e381afe3829ae3828a; 0xe38284e381b5e38299e3828b; 0xe38284e38281e3828b; 0xe38284e38284e38193e38197e38184; 0xe38284e38288e38184; 0xe38284e3828fe38289e3818be38184; 0xe38286e38186e3818d;
  0xe38286e38186e381b2e38299e38293e3818de38287e3818f; 0xe38286e38186e381b8e38299; 0xe38286e38186e38281e38184; 0xe38286e38191e381a4; 0xe38286e38197e38285e381a4; 0xe38286e3819be38293; 0xe38286e3819de38186; 0xe38286e3819fe3818b;
  0xe38286e381a1e38283e3818f; 0xe38286e381a6e38299e3828b; 0xe38286e381abe38285e38186; 0xe38286e381b2e38299e3828f; 0xe38286e38289e38184; 0xe38286e3828ce3828b; 0xe38288e38186e38184; 0xe38288e38186e3818b;
  0xe38288e38186e3818de38285e38186; 0xe38288e38186e38197e38299; 0xe38288e38186e38199; 0xe38288e38186e381a1e38188e38293; 0xe38288e3818be3819be38299; 0xe38288e3818be38293; 0xe38288e3818de38293; 0xe38288e3818fe3819be38184;
  0xe38288e3818fe381bbe38299e38186; 0xe38288e38191e38184; 0xe38288e38193e38299e3828ce3828b; 0xe38288e38195e38293; 0xe38288e38197e38285e38186; 0xe38288e3819de38186; 0xe38288e3819de3818f; 0xe38288e381a3e3818b;
  0xe38288e381a6e38184; 0xe38288e381a8e38299e3818be38299e3828fe3818f; 0xe38288e381ade381a4; 0xe38288e38284e3818f; 0xe38288e38286e38186; 0xe38288e3828de38193e381b5e38299; 0xe38288e3828de38197e38184; 0xe38289e38184e38186;
  0xe38289e3818fe3818be38299e3818d; 0xe38289e3818fe38193e38299; 0xe38289e3818fe38195e381a4; 0xe38289e3818fe3819fe38299; 0xe38289e38197e38293e381afe38299e38293; 0xe38289e3819be38293; 0xe38289e3819de38299e3818f; 0xe38289e3819fe38184;
  0xe38289e381a3e3818b; 0xe38289e3828ce381a4; 0xe3828ae38188e3818d; 0xe3828ae3818be38184; 0xe3828ae3818de38195e3818f; 0xe3828ae3818de3819be381a4; 0xe3828ae3818fe3818fe38299e38293; 0xe3828ae3818fe381a4;
  0xe3828ae38191e38293; 0xe3828ae38193e38186; 0xe3828ae3819be38184; 0xe3828ae3819de38186; 0xe3828ae3819de3818f; 0xe3828ae381a6e38293; 0xe3828ae381ade38293; 0xe3828ae38286e38186;
  0xe3828ae38285e38186e3818be38299e3818f; 0xe3828ae38288e38186; 0xe3828ae38287e38186e3828a; 0xe3828ae38287e3818be38293; 0xe3828ae38287e3818fe381a1e38283; 0xe3828ae38287e38193e38186; 0xe3828ae3828ae3818f; 0xe3828ae3828ce3818d;
  0xe3828ae3828de38293; 0xe3828ae38293e38193e38299; 0xe3828be38184e38191e38184; 0xe3828be38184e38195e38184; 0xe3828be38184e38197e38299; 0xe3828be38184e3819be3818d; 0xe3828be38199e381afe38299e38293; 0xe3828be3828ae3818be38299e3828fe38289;
  0xe3828ce38184e3818be38293; 0xe3828ce38184e3818de38299; 0xe3828ce38184e3819be38184; 0xe3828ce38184e3819de38299e38186e38193; 0xe3828ce38184e381a8e38186; 0xe3828ce38184e381bbe38299e38186; 0xe3828ce3818de38197; 0xe3828ce3818de3819fe38299e38184;
  0xe3828ce38293e38182e38184; 0xe3828ce38293e38191e38184; 0xe3828ce38293e38193e38293; 0xe3828ce38293e38195e38184; 0xe3828ce38293e38197e38285e38186; 0xe3828ce38293e3819de38299e3818f; 0xe3828ce38293e38289e3818f; 0xe3828de38186e3818b;
  0xe3828de38186e38193e38299; 0xe3828de38186e38197e38299e38293; 0xe3828de38186e3819de3818f; 0xe3828de3818fe3818be38299; 0xe3828de38193e381a4; 0xe3828de38197e38299e38186e38289; 0xe3828de38197e38285e381a4; 0xe3828de3819be38293;
  0xe3828de381a6e38293; 0xe3828de38281e38293; 0xe3828de3828ce381a4; 0xe3828de38293e3818de38299; 0xe3828de38293e381afe3829a; 0xe3828de38293e381b5e38299e38293; 0xe3828de38293e3828a; 0xe3828fe3818be38199;
  0xe3828fe3818be38281; 0xe3828fe3818be38284e381be; 0xe3828fe3818be3828ce3828b; 0xe3828fe38197e381a4; 0xe3828fe38197e38299e381bee38197; 0xe3828fe38199e3828ce38282e381ae; 0xe3828fe38289e38186; 0xe3828fe3828ce3828b].

(** bip39_dictionary.hpp:14567-17667 *)
Definition dict_korean : list Z := [
  0xe18480e185a1e18480e185a7e186a8; 0xe18480e185a1e18481e185b3e186b7; 0xe18480e185a1e18482e185a1e186ab; 0xe18480e185a1e18482e185b3e186bc; 0xe18480e185a1e18483e185b3e186a8; 0xe18480e185a1e18485e185b3e1848ee185b5e186b7; 0xe18480e185a1e18486e185aee186b7; 0xe18480e185a1e18487e185a1e186bc;
  0xe18480e185a1e18489e185a1e186bc; 0xe18480e185a1e18489e185b3e186b7; 0xe18480e185a1e1848be185aee186abe18483e185a6; 0xe18480e185a1e1848be185b3e186af; 0xe18480e185a1e1848be185b5e18483e185b3; 0xe18480e185a1e1848be185b5e186b8; 0xe18480e185a1e1848ce185a1e186bc; 0xe18480e185a1e1848ce185a5e186bc;
  0xe18480e185a1e1848ce185a9e186a8; 0xe18480e185a1e1848ce185aee186a8; 0xe18480e185a1e186a8e1848be185a9; 0xe18480e185a1e186a8e1848ce185a1; 0xe18480e185a1e186abe18480e185a7e186a8; 0xe18480e185a1e186abe18487e185ae; 0xe18480e185a1e186abe18489e185a5e186b8; 0xe18480e185a1e186abe1848ce185a1e186bc;
  0xe18480e185a1e186abe1848ce185a5e186b8; 0xe18480e185a1e186abe18491e185a1e186ab; 0xe18480e185a1e186afe18483e185b3e186bc; 0xe18480e185a1e186afe18487e185b5; 0xe18480e185a1e186afe18489e185a2e186a8; 0xe18480e185a1e186afe1848ce185b3e186bc; 0xe18480e185a1e186b7e18480e185a1e186a8; 0xe18480e185a1e186b7e18480e185b5;
  0xe18480e185a1e186b7e18489e185a9; 0xe18480e185a1e186b7e18489e185aee18489e185a5e186bc; 0xe18480e185a1e186b7e1848ce185a1; 0xe18480e185a1e186b7e1848ce185a5e186bc; 0xe18480e185a1e186b8e1848ce185a1e18480e185b5; 0xe18480e185a1e186bce18482e185a1e186b7; 0xe18480e185a1e186bce18483e185a1e186bc; 0xe18480e185a1e186bce18483e185a9;
  0xe18480e185a1e186bce18485e185a7e186a8e18492e185b5; 0xe18480e185a1e186bce18487e185a7e186ab; 0xe18480e185a1e186bce18487e185aee186a8; 0xe18480e185a1e186bce18489e185a1; 0xe18480e185a1e186bce18489e185aee18485e185a3e186bc; 0xe18480e185a1e186bce1848be185a1e1848ce185b5; 0xe18480e185a1e186bce1848be185afe186abe18483e185a9; 0xe18480e185a1e186bce1848be185b4;
  0xe18480e185a1e186bce1848ce185a6; 0xe18480e185a1e186bce1848ce185a9; 0xe18480e185a1e18780e1848be185b5; 0xe18480e185a2e18480e185aee18485e185b5; 0xe18480e185a2e18482e185a1e18485e185b5; 0xe18480e185a2e18487e185a1e186bc; 0xe18480e185a2e18487e185a7e186af; 0xe18480e185a2e18489e185a5e186ab;
  0xe18480e185a2e18489e185a5e186bc; 0xe18480e185a2e1848be185b5e186ab; 0xe18480e185a2e186a8e18480e185aae186abe1848ce185a5e186a8; 0xe18480e185a5e18489e185b5e186af; 0xe18480e185a5e1848be185a2e186a8; 0xe18480e185a5e1848be185aee186af; 0xe18480e185a5e1848ce185b5e186ba; 0xe18480e185a5e18491e185aee186b7;
  0xe18480e185a5e186a8e1848ce185a5e186bc; 0xe18480e185a5e186abe18480e185a1e186bc; 0xe18480e185a5e186abe18486e185aee186af; 0xe18480e185a5e186abe18489e185a5e186af; 0xe18480e185a5e186abe1848ce185a9; 0xe18480e185a5e186abe1848ee185aee186a8; 0xe18480e185a5e186afe1848be185b3e186b7; 0xe18480e185a5e186b7e18489e185a1;
  0xe18480e185a5e186b7e18490e185a9; 0xe18480e185a6e18489e185b5e18491e185a1e186ab; 0xe18480e185a6e1848be185b5e186b7; 0xe18480e185a7e1848be185aee186af; 0xe18480e185a7e186abe18492e185a2; 0xe18480e185a7e186afe18480e185aa; 0xe18480e185a7e186afe18480e185aee186a8; 0xe18480e185a7e186afe18485e185a9e186ab;
  0xe18480e185a7e186afe18489e185a5e186a8; 0xe18480e185a7e186afe18489e185b3e186bc; 0xe18480e185a7e186afe18489e185b5e186b7; 0xe18480e185a7e186afe1848ce185a5e186bc; 0xe18480e185a7e186afe18492e185a9e186ab; 0xe18480e185a7e186bce18480e185a8; 0xe18480e185a7e186bce18480e185a9; 0xe18480e185a7e186bce18480e185b5;
  0xe18480e185a7e186bce18485e185a7e186a8; 0xe18480e185a7e186bce18487e185a9e186a8e18480e185aee186bc; 0xe18480e185a7e186bce18487e185b5; 0xe18480e185a7e186bce18489e185a1e186bce18483e185a9; 0xe18480e185a7e186bce1848be185a7e186bc; 0xe18480e185a7e186bce1848be185ae; 0xe18480e185a7e186bce1848ce185a2e186bc; 0xe18480e185a7e186bce1848ce185a6;
  0xe18480e185a7e186bce1848ce185ae; 0xe18480e185a7e186bce1848ee185a1e186af; 0xe18480e185a7e186bce1848ee185b5; 0xe18480e185a7e186bce18492e185a3e186bc; 0xe18480e185a7e186bce18492e185a5e186b7; 0xe18480e185a8e18480e185a9e186a8; 0xe18480e185a8e18483e185a1e186ab; 0xe18480e185a8e18485e185a1e186ab;
  0xe18480e185a8e18489e185a1e186ab; 0xe18480e185a8e18489e185a9e186a8; 0xe18480e185a8e1848be185a3e186a8; 0xe18480e185a8e1848ce185a5e186af; 0xe18480e185a8e1848ee185b3e186bc; 0xe18480e185a8e18492e185ace186a8; 0xe18480e185a9e18480e185a2e186a8; 0xe18480e185a9e18480e185aee18485e185a7;
  0xe18480e185a9e18480e185aee186bc; 0xe18480e185a9e18480e185b3e186b8; 0xe18480e185a9e18483e185b3e186bce18492e185a1e186a8e18489e185a2e186bc; 0xe18480e185a9e18486e185aee18489e185b5e186ab; 0xe18480e185a9e18486e185b5e186ab; 0xe18480e185a9e1848be185a3e186bce1848be185b5; 0xe18480e185a9e1848ce185a1e186bc; 0xe18480e185a9e1848ce185a5e186ab;
  0xe18480e185a9e1848ce185b5e186b8; 0xe18480e185a9e1848ee185aee186bae18480e185a1e18485e185ae; 0xe18480e185a9e18490e185a9e186bc; 0xe18480e185a9e18492e185a3e186bc; 0xe18480e185a9e186a8e18489e185b5e186a8; 0xe18480e185a9e186afe18486e185a9e186a8; 0xe18480e185a9e186afe1848de185a1e18480e185b5; 0xe18480e185a9e186afe18491e185b3;
  0xe18480e185a9e186bce18480e185a1e186ab; 0xe18480e185a9e186bce18480e185a2; 0xe18480e185a9e186bce18480e185a7e186a8; 0xe18480e185a9e186bce18480e185aee186ab; 0xe18480e185a9e186bce18480e185b3e186b8; 0xe18480e185a9e186bce18480e185b5; 0xe18480e185a9e186bce18483e185a9e186bc; 0xe18480e185a9e186bce18486e185aee1848be185afe186ab;
  0xe18480e185a9e186bce18487e185ae; 0xe18480e185a9e186bce18489e185a1; 0xe18480e185a9e186bce18489e185b5e186a8; 0xe18480e185a9e186bce1848be185a5e186b8; 0xe18480e185a9e186bce1848be185a7e186ab; 0xe18480e185a9e186bce1848be185afe186ab; 0xe18480e185a9e186bce1848ce185a1e186bc; 0xe18480e185a9e186bce1848de185a1;
  0xe18480e185a9e186bce1848ee185a2e186a8; 0xe18480e185a9e186bce18490e185a9e186bc; 0xe18480e185a9e186bce18491e185a9; 0xe18480e185a9e186bce18492e185a1e186bc; 0xe18480e185a9e186bce18492e185b2e1848be185b5e186af; 0xe18480e185aae18486e185a9e186a8; 0xe18480e185aae1848be185b5e186af; 0xe18480e185aae1848ce185a1e186bc;
  0xe18480e185aae1848ce185a5e186bc; 0xe18480e185aae18492e185a1e186a8; 0xe18480e185aae186abe18480e185a2e186a8; 0xe18480e185aae186abe18480e185a8; 0xe18480e185aae186abe18480e185aae186bc; 0xe18480e185aae186abe18482e185a7e186b7; 0xe18480e185aae186abe18485e185a1e186b7; 0xe18480e185aae186abe18485e185a7e186ab;
  0xe18480e185aae186abe18485e185b5; 0xe18480e185aae186abe18489e185b3e186b8; 0xe18480e185aae186abe18489e185b5e186b7; 0xe18480e185aae186abe1848ce185a5e186b7; 0xe18480e185aae186abe1848ee185a1e186af; 0xe18480e185aae186bce18480e185a7e186bc; 0xe18480e185aae186bce18480e185a9; 0xe18480e185aae186bce1848ce185a1e186bc;
  0xe18480e185aae186bce1848ce185ae; 0xe18480e185ace18485e185a9e1848be185aee186b7; 0xe18480e185ace186bce1848ce185a1e186bce18492e185b5; 0xe18480e185ade18480e185aae18489e185a5; 0xe18480e185ade18486e185aee186ab; 0xe18480e185ade18487e185a9e186a8; 0xe18480e185ade18489e185b5e186af; 0xe18480e185ade1848be185a3e186bc;
  0xe18480e185ade1848be185b2e186a8; 0xe18480e185ade1848ce185a1e186bc; 0xe18480e185ade1848ce185b5e186a8; 0xe18480e185ade18490e185a9e186bc; 0xe18480e185ade18492e185aae186ab; 0xe18480e185ade18492e185aee186ab; 0xe18480e185aee18480e185a7e186bc; 0xe18480e185aee18485e185b3e186b7;
  0xe18480e185aee18486e185a5e186bc; 0xe18480e185aee18487e185a7e186af; 0xe18480e185aee18487e185aee186ab; 0xe18480e185aee18489e185a5e186a8; 0xe18480e185aee18489e185a5e186bc; 0xe18480e185aee18489e185a9e186a8; 0xe18480e185aee1848be185a7e186a8; 0xe18480e185aee1848be185b5e186b8;
  0xe18480e185aee1848ee185a5e186bc; 0xe18480e185aee1848ee185a6e1848ce185a5e186a8; 0xe18480e185aee186a8e18480e185a1; 0xe18480e185aee186a8e18480e185b5; 0xe18480e185aee186a8e18482e185a2; 0xe18480e185aee186a8e18485e185b5e186b8; 0xe18480e185aee186a8e18486e185aee186af; 0xe18480e185aee186a8e18486e185b5e186ab;
  0xe18480e185aee186a8e18489e185ae; 0xe18480e185aee186a8e1848be185a5; 0xe18480e185aee186a8e1848be185aae186bc; 0xe18480e185aee186a8e1848ce185a5e186a8; 0xe18480e185aee186a8e1848ce185a6; 0xe18480e185aee186a8e18492e185ac; 0xe18480e185aee186abe18483e185a2; 0xe18480e185aee186abe18489e185a1;
  0xe18480e185aee186abe1848be185b5e186ab; 0xe18480e185aee186bce18480e185b3e186a8e1848ce185a5e186a8; 0xe18480e185afe186abe18485e185b5; 0xe18480e185afe186abe1848be185b1; 0xe18480e185afe186abe18490e185ae; 0xe18480e185b1e18480e185aee186a8; 0xe18480e185b1e18489e185b5e186ab; 0xe18480e185b2e1848ce185a5e186bc;
  0xe18480e185b2e1848ee185b5e186a8; 0xe18480e185b2e186abe18492e185a7e186bc; 0xe18480e185b3e18482e185a1e186af; 0xe18480e185b3e18482e185a3e186bc; 0xe18480e185b3e18482e185b3e186af; 0xe18480e185b3e18485e185a5e18482e185a1; 0xe18480e185b3e18485e185aee186b8; 0xe18480e185b3e18485e185b3e186ba;
  0xe18480e185b3e18485e185b5e186b7; 0xe18480e185b3e1848ce185a6e18489e185a5e1848be185a3; 0xe18480e185b3e18490e185a9e18485e185a9e186a8; 0xe18480e185b3e186a8e18487e185a9e186a8; 0xe18480e185b3e186a8e18492e185b5; 0xe18480e185b3e186abe18480e185a5; 0xe18480e185b3e186abe18480e185ad; 0xe18480e185b3e186abe18485e185a2;
  0xe18480e185b3e186abe18485e185a9; 0xe18480e185b3e186abe18486e185ae; 0xe18480e185b3e186abe18487e185a9e186ab; 0xe18480e185b3e186abe1848be185afe186ab; 0xe18480e185b3e186abe1848be185b2e186a8; 0xe18480e185b3e186abe1848ee185a5; 0xe18480e185b3e186afe1848ae185b5; 0xe18480e185b3e186afe1848ce185a1;
  0xe18480e185b3e186b7e18480e185a1e186bce18489e185a1e186ab; 0xe18480e185b3e186b7e18480e185a9; 0xe18480e185b3e186b7e18482e185a7e186ab; 0xe18480e185b3e186b7e18486e185a6e18483e185a1e186af; 0xe18480e185b3e186b7e1848be185a2e186a8; 0xe18480e185b3e186b7e1848be185a7e186ab; 0xe18480e185b3e186b7e1848be185ade1848be185b5e186af; 0xe18480e185b3e186b7e1848ce185b5;
  0xe18480e185b3e186bce1848ce185a5e186bce1848ce185a5e186a8; 0xe18480e185b5e18480e185a1e186ab; 0xe18480e185b5e18480e185aae186ab; 0xe18480e185b5e18482e185a7e186b7; 0xe18480e185b5e18482e185b3e186bc; 0xe18480e185b5e18483e185a9e186a8e18480e185ad; 0xe18480e185b5e18483e185aee186bc; 0xe18480e185b5e18485e185a9e186a8;
  0xe18480e185b5e18485e185b3e186b7; 0xe18480e185b5e18487e185a5e186b8; 0xe18480e185b5e18487e185a9e186ab; 0xe18480e185b5e18487e185aee186ab; 0xe18480e185b5e18488e185b3e186b7; 0xe18480e185b5e18489e185aee186a8e18489e185a1; 0xe18480e185b5e18489e185aee186af; 0xe18480e185b5e1848be185a5e186a8;
  0xe18480e185b5e1848be185a5e186b8; 0xe18480e185b5e1848be185a9e186ab; 0xe18480e185b5e1848be185aee186ab; 0xe18480e185b5e1848be185afe186ab; 0xe18480e185b5e1848ce185a5e186a8; 0xe18480e185b5e1848ce185aee186ab; 0xe18480e185b5e1848ee185b5e186b7; 0xe18480e185b5e18492e185a9e186ab;
  0xe18480e185b5e18492e185ace186a8; 0xe18480e185b5e186abe18480e185b3e186b8; 0xe18480e185b5e186abe1848ce185a1e186bc; 0xe18480e185b5e186afe1848be185b5; 0xe18480e185b5e186b7e18487e185a1e186b8; 0xe18480e185b5e186b7e1848ee185b5; 0xe18480e185b5e186b7e18491e185a9e18480e185a9e186bce18492e185a1e186bc; 0xe18481e185a1e186a8e18483e185aee18480e185b5;
  0xe18481e185a1e186b7e18488e185a1e186a8; 0xe18481e185a2e18483e185a1e186afe1848be185b3e186b7; 0xe18481e185a2e18489e185a9e18480e185b3e186b7; 0xe18481e185a5e186b8e1848ce185b5e186af; 0xe18481e185a9e186a8e18483e185a2e18480e185b5; 0xe18481e185a9e186bee1848be185b5e18781; 0xe18482e185a1e18483e185b3e186afe1848be185b5; 0xe18482e185a1e18485e185a1e186abe18492e185b5;
  0xe18482e185a1e18486e185a5e1848ce185b5; 0xe18482e185a1e18486e185aee186af; 0xe18482e185a1e1848ee185b5e186b7e18487e185a1e186ab; 0xe18482e185a1e18492e185b3e186af; 0xe18482e185a1e186a8e1848be185a7e186b8; 0xe18482e185a1e186abe18487e185a1e186bc; 0xe18482e185a1e186afe18480e185a2; 0xe18482e185a1e186afe1848ae185b5;
  0xe18482e185a1e186afe1848de185a1; 0xe18482e185a1e186b7e18482e185a7; 0xe18482e185a1e186b7e18483e185a2e18486e185aee186ab; 0xe18482e185a1e186b7e18486e185a2; 0xe18482e185a1e186b7e18489e185a1e186ab; 0xe18482e185a1e186b7e1848ce185a1; 0xe18482e185a1e186b7e18491e185a7e186ab; 0xe18482e185a1e186b7e18492e185a1e186a8e18489e185a2e186bc;
  0xe18482e185a1e186bce18487e185b5; 0xe18482e185a1e18780e18486e185a1e186af; 0xe18482e185a2e18482e185a7e186ab; 0xe18482e185a2e1848be185ade186bc; 0xe18482e185a2e1848be185b5e186af; 0xe18482e185a2e186b7e18487e185b5; 0xe18482e185a2e186b7e18489e185a2; 0xe18482e185a2e186bae18486e185aee186af;
  0xe18482e185a2e186bce18483e185a9e186bc; 0xe18482e185a2e186bce18486e185a7e186ab; 0xe18482e185a2e186bce18487e185a1e186bc; 0xe18482e185a2e186bce1848ce185a1e186bce18480e185a9; 0xe18482e185a6e186a8e18490e185a1e1848be185b5; 0xe18482e185a6e186bae1848de185a2; 0xe18482e185a9e18483e185a9e186bc; 0xe18482e185a9e18485e185a1e186abe18489e185a2e186a8;
  0xe18482e185a9e18485e185a7e186a8; 0xe18482e185a9e1848be185b5e186ab; 0xe18482e185a9e186a8e1848be185b3e186b7; 0xe18482e185a9e186a8e1848ee185a1; 0xe18482e185a9e186a8e18492e185aa; 0xe18482e185a9e186abe18485e185b5; 0xe18482e185a9e186abe18486e185aee186ab; 0xe18482e185a9e186abe1848ce185a2e186bc;
  0xe18482e185a9e186afe1848be185b5; 0xe18482e185a9e186bce18480e185ae; 0xe18482e185a9e186bce18483e185a1e186b7; 0xe18482e185a9e186bce18486e185b5e186ab; 0xe18482e185a9e186bce18487e185ae; 0xe18482e185a9e186bce1848be185a5e186b8; 0xe18482e185a9e186bce1848ce185a1e186bc; 0xe18482e185a9e186bce1848ee185a9e186ab;
  0xe18482e185a9e18781e1848be185b5; 0xe18482e185aee186abe18483e185a9e186bce1848ce185a1; 0xe18482e185aee186abe18486e185aee186af; 0xe18482e185aee186abe1848ae185a5e186b8; 0xe18482e185b2e1848be185ade186a8; 0xe18482e185b3e18481e185b5e186b7; 0xe18482e185b3e186a8e18483e185a2; 0xe18482e185b3e186bce18483e185a9e186bce1848ce185a5e186a8;
  0xe18482e185b3e186bce18485e185a7e186a8; 0xe18483e185a1e18487e185a1e186bc; 0xe18483e185a1e1848be185a3e186bce18489e185a5e186bc; 0xe18483e185a1e1848be185b3e186b7; 0xe18483e185a1e1848be185b5e1848be185a5e18490e185b3; 0xe18483e185a1e18492e185a2e186bc; 0xe18483e185a1e186abe18480e185a8; 0xe18483e185a1e186abe18480e185a9e186af;
  0xe18483e185a1e186abe18483e185a9e186a8; 0xe18483e185a1e186abe18486e185a1e186ba; 0xe18483e185a1e186abe18489e185aee186ab; 0xe18483e185a1e186abe1848be185a5; 0xe18483e185a1e186abe1848be185b1; 0xe18483e185a1e186abe1848ce185a5e186b7; 0xe18483e185a1e186abe1848ee185a6; 0xe18483e185a1e186abe1848ee185ae;
  0xe18483e185a1e186abe18491e185a7e186ab; 0xe18483e185a1e186abe18491e185aee186bc; 0xe18483e185a1e186afe18480e185a3e186af; 0xe18483e185a1e186afe18485e185a5; 0xe18483e185a1e186afe18485e185a7e186a8; 0xe18483e185a1e186afe18485e185b5; 0xe18483e185a1e186b0e18480e185a9e18480e185b5; 0xe18483e185a1e186b7e18483e185a1e186bc;
  0xe18483e185a1e186b7e18487e185a2; 0xe18483e185a1e186b7e1848be185ad; 0xe18483e185a1e186b7e1848be185b5e186b7; 0xe18483e185a1e186b8e18487e185a7e186ab; 0xe18483e185a1e186b8e1848ce185a1e186bc; 0xe18483e185a1e186bce18480e185b3e186ab; 0xe18483e185a1e186bce18487e185aee186abe18480e185a1e186ab; 0xe18483e185a1e186bce1848be185a7e186abe18492e185b5;
  0xe18483e185a1e186bce1848ce185a1e186bc; 0xe18483e185a2e18480e185b2e18486e185a9; 0xe18483e185a2e18482e185a1e186bd; 0xe18483e185a2e18483e185a1e186abe18492e185b5; 0xe18483e185a2e18483e185a1e186b8; 0xe18483e185a2e18483e185a9e18489e185b5; 0xe18483e185a2e18485e185a3e186a8; 0xe18483e185a2e18485e185a3e186bc;
  0xe18483e185a2e18485e185b2e186a8; 0xe18483e185a2e18486e185aee186ab; 0xe18483e185a2e18487e185aee18487e185aee186ab; 0xe18483e185a2e18489e185b5e186ab; 0xe18483e185a2e1848be185b3e186bc; 0xe18483e185a2e1848ce185a1e186bc; 0xe18483e185a2e1848ce185a5e186ab; 0xe18483e185a2e1848ce185a5e186b8;
  0xe18483e185a2e1848ce185aee186bc; 0xe18483e185a2e1848ee185a2e186a8; 0xe18483e185a2e1848ee185aee186af; 0xe18483e185a2e1848ee185aee186bc; 0xe18483e185a2e18490e185a9e186bce18485e185a7e186bc; 0xe18483e185a2e18492e185a1e186a8; 0xe18483e185a2e18492e185a1e186abe18486e185b5e186abe18480e185aee186a8; 0xe18483e185a2e18492e185a1e186b8e18489e185b5e186af;
  0xe18483e185a2e18492e185a7e186bc; 0xe18483e185a5e186bce1848be185a5e18485e185b5; 0xe18483e185a6e1848be185b5e18490e185b3; 0xe18483e185a9e18483e185a2e1848ee185a6; 0xe18483e185a9e18483e185a5e186a8; 0xe18483e185a9e18483e185aee186a8; 0xe18483e185a9e18486e185a1e186bc; 0xe18483e185a9e18489e185a5e18480e185aae186ab;
  0xe18483e185a9e18489e185b5e186b7; 0xe18483e185a9e1848be185aee186b7; 0xe18483e185a9e1848be185b5e186b8; 0xe18483e185a9e1848ce185a1e18480e185b5; 0xe18483e185a9e1848ce185a5e18492e185b5; 0xe18483e185a9e1848ce185a5e186ab; 0xe18483e185a9e1848ce185aee186bc; 0xe18483e185a9e1848ee185a1e186a8;
  0xe18483e185a9e186a8e18480e185a1e186b7; 0xe18483e185a9e186a8e18485e185b5e186b8; 0xe18483e185a9e186a8e18489e185a5; 0xe18483e185a9e186a8e1848be185b5e186af; 0xe18483e185a9e186a8e1848ee185a1e186bce1848ce185a5e186a8; 0xe18483e185a9e186bce18492e185aae1848ee185a2e186a8; 0xe18483e185b1e186bae18486e185a9e18489e185b3e186b8; 0xe18483e185b1e186bae18489e185a1e186ab;
  0xe18484e185a1e186afe1848be185a1e1848be185b5; 0xe18486e185a1e18482e185aee18485e185a1; 0xe18486e185a1e18482e185b3e186af; 0xe18486e185a1e18483e185a1e186bc; 0xe18486e185a1e18485e185a1e18490e185a9e186ab; 0xe18486e185a1e18485e185a7e186ab; 0xe18486e185a1e18486e185aee18485e185b5; 0xe18486e185a1e18489e185a1e1848ce185b5;
  0xe18486e185a1e1848be185a3e186a8; 0xe18486e185a1e1848be185ade18482e185a6e1848ce185b3; 0xe18486e185a1e1848be185b3e186af; 0xe18486e185a1e1848be185b3e186b7; 0xe18486e185a1e1848be185b5e1848fe185b3; 0xe18486e185a1e1848ce185aee186bc; 0xe18486e185a1e1848ce185b5e18486e185a1e186a8; 0xe18486e185a1e1848ee185a1e186abe18480e185a1e1848ce185b5;
  0xe18486e185a1e1848ee185a1e186af; 0xe18486e185a1e18492e185b3e186ab; 0xe18486e185a1e186a8e18480e185a5e186afe18485e185b5; 0xe18486e185a1e186a8e18482e185a2; 0xe18486e185a1e186a8e18489e185a1e186bc; 0xe18486e185a1e186abe18482e185a1e186b7; 0xe18486e185a1e186abe18483e185ae; 0xe18486e185a1e186abe18489e185a6;
  0xe18486e185a1e186abe1848be185a3e186a8; 0xe18486e185a1e186abe1848be185b5e186af; 0xe18486e185a1e186abe1848ce185a5e186b7; 0xe18486e185a1e186abe1848ce185a9e186a8; 0xe18486e185a1e186abe18492e185aa; 0xe18486e185a1e186ade1848be185b5; 0xe18486e185a1e186afe18480e185b5; 0xe18486e185a1e186afe1848ae185b3e186b7;
  0xe18486e185a1e186afe18490e185ae; 0xe18486e185a1e186b7e18483e185a2e18485e185a9; 0xe18486e185a1e186bce1848be185afe186abe18480e185a7e186bc; 0xe18486e185a2e18482e185a7e186ab; 0xe18486e185a2e18483e185a1e186af; 0xe18486e185a2e18485e185a7e186a8; 0xe18486e185a2e18487e185a5e186ab; 0xe18486e185a2e18489e185b3e1848fe185a5e186b7;
  0xe18486e185a2e1848be185b5e186af; 0xe18486e185a2e1848ce185a1e186bc; 0xe18486e185a2e186a8e1848ce185ae; 0xe18486e185a5e186a8e1848be185b5; 0xe18486e185a5e186abe1848ce185a5; 0xe18486e185a5e186abe1848ce185b5; 0xe18486e185a5e186afe18485e185b5; 0xe18486e185a6e1848be185b5e186af;
  0xe18486e185a7e18482e185b3e18485e185b5; 0xe18486e185a7e1848ee185b5e186af; 0xe18486e185a7e186abe18483e185a1e186b7; 0xe18486e185a7e186afe1848ee185b5; 0xe18486e185a7e186bce18483e185a1e186ab; 0xe18486e185a7e186bce18485e185a7e186bc; 0xe18486e185a7e186bce1848be185a8; 0xe18486e185a7e186bce1848be185b4;
  0xe18486e185a7e186bce1848ce185a5e186af; 0xe18486e185a7e186bce1848ee185b5e186bc; 0xe18486e185a7e186bce18492e185a1e186b7; 0xe18486e185a9e18480e185b3e186b7; 0xe18486e185a9e18482e185b5e18490e185a5; 0xe18486e185a9e18483e185a6e186af; 0xe18486e185a9e18483e185b3e186ab; 0xe18486e185a9e18487e185a5e186b7;
  0xe18486e185a9e18489e185b3e186b8; 0xe18486e185a9e1848be185a3e186bc; 0xe18486e185a9e1848be185b5e186b7; 0xe18486e185a9e1848ce185a9e18485e185b5; 0xe18486e185a9e1848ce185b5e186b8; 0xe18486e185a9e18490e185aee186bce1848be185b5; 0xe18486e185a9e186a8e18480e185a5e186afe1848be185b5; 0xe18486e185a9e186a8e18485e185a9e186a8;
  0xe18486e185a9e186a8e18489e185a1; 0xe18486e185a9e186a8e18489e185a9e18485e185b5; 0xe18486e185a9e186a8e18489e185aee186b7; 0xe18486e185a9e186a8e1848ce185a5e186a8; 0xe18486e185a9e186a8e18491e185ad; 0xe18486e185a9e186afe18485e185a2; 0xe18486e185a9e186b7e18486e185a2; 0xe18486e185a9e186b7e18486e185aee18480e185a6;
  0xe18486e185a9e186b7e18489e185a1e186af; 0xe18486e185a9e186b7e18489e185a9e186a8; 0xe18486e185a9e186b7e1848ce185b5e186ba; 0xe18486e185a9e186b7e18490e185a9e186bc; 0xe18486e185a9e186b8e18489e185b5; 0xe18486e185aee18480e185aae186abe18489e185b5e186b7; 0xe18486e185aee18480e185aee186bce18492e185aa; 0xe18486e185aee18483e185a5e1848be185b1;
  0xe18486e185aee18483e185a5e186b7; 0xe18486e185aee18485e185b3e18781; 0xe18486e185aee18489e185b3e186ab; 0xe18486e185aee1848be185a5e186ba; 0xe18486e185aee1848be185a7e186a8; 0xe18486e185aee1848be185ade186bc; 0xe18486e185aee1848ce185a9e18480e185a5e186ab; 0xe18486e185aee1848ce185b5e18480e185a2;
  0xe18486e185aee1848ee185a5e186a8; 0xe18486e185aee186abe18480e185ae; 0xe18486e185aee186abe18483e185b3e186a8; 0xe18486e185aee186abe18487e185a5e186b8; 0xe18486e185aee186abe18489e185a5; 0xe18486e185aee186abe1848ce185a6; 0xe18486e185aee186abe18492e185a1e186a8; 0xe18486e185aee186abe18492e185aa;
  0xe18486e185aee186afe18480e185a1; 0xe18486e185aee186afe18480e185a5e186ab; 0xe18486e185aee186afe18480e185a7e186af; 0xe18486e185aee186afe18480e185a9e18480e185b5; 0xe18486e185aee186afe18485e185a9e186ab; 0xe18486e185aee186afe18485e185b5e18492e185a1e186a8; 0xe18486e185aee186afe1848be185b3e186b7; 0xe18486e185aee186afe1848ce185b5e186af;
  0xe18486e185aee186afe1848ee185a6; 0xe18486e185b5e18480e185aee186a8; 0xe18486e185b5e18483e185b5e1848be185a5; 0xe18486e185b5e18489e185a1e1848be185b5e186af; 0xe18486e185b5e18489e185aee186af; 0xe18486e185b5e1848be185a7e186a8; 0xe18486e185b5e1848be185ade186bce18489e185b5e186af; 0xe18486e185b5e1848be185aee186b7;
  0xe18486e185b5e1848be185b5e186ab; 0xe18486e185b5e18490e185b5e186bc; 0xe18486e185b5e18492e185a9e186ab; 0xe18486e185b5e186abe18480e185a1e186ab; 0xe18486e185b5e186abe1848ce185a9e186a8; 0xe18486e185b5e186abe1848ce185ae; 0xe18486e185b5e186aee1848be185b3e186b7; 0xe18486e185b5e186afe18480e185a1e18485e185ae;
  0xe18486e185b5e186afe18485e185b5e18486e185b5e18490e185a5; 0xe18486e185b5e18780e18487e185a1e18483e185a1e186a8; 0xe18487e185a1e18480e185a1e1848ce185b5; 0xe18487e185a1e18480e185aee18482e185b5; 0xe18487e185a1e18482e185a1e18482e185a1; 0xe18487e185a1e18482e185b3e186af; 0xe18487e185a1e18483e185a1e186a8; 0xe18487e185a1e18483e185a1e186bae18480e185a1;
  0xe18487e185a1e18485e185a1e186b7; 0xe18487e185a1e1848be185b5e18485e185a5e18489e185b3; 0xe18487e185a1e18490e185a1e186bc; 0xe18487e185a1e186a8e18486e185aee186afe18480e185aae186ab; 0xe18487e185a1e186a8e18489e185a1; 0xe18487e185a1e186a8e18489e185ae; 0xe18487e185a1e186abe18483e185a2; 0xe18487e185a1e186abe18483e185b3e18489e185b5;
  0xe18487e185a1e186abe18486e185a1e186af; 0xe18487e185a1e186abe18487e185a1e186af; 0xe18487e185a1e186abe18489e185a5e186bc; 0xe18487e185a1e186abe1848be185b3e186bc; 0xe18487e185a1e186abe1848ce185a1e186bc; 0xe18487e185a1e186abe1848ce185aee186a8; 0xe18487e185a1e186abe1848ce185b5; 0xe18487e185a1e186abe1848ee185a1e186ab;
  0xe18487e185a1e186aee1848ee185b5e186b7; 0xe18487e185a1e186afe18480e185a1e18485e185a1e186a8; 0xe18487e185a1e186afe18480e185a5e186afe1848be185b3e186b7; 0xe18487e185a1e186afe18480e185a7e186ab; 0xe18487e185a1e186afe18483e185a1e186af; 0xe18487e185a1e186afe18485e185a6; 0xe18487e185a1e186afe18486e185a9e186a8; 0xe18487e185a1e186afe18487e185a1e18483e185a1e186a8;
  0xe18487e185a1e186afe18489e185a2e186bc; 0xe18487e185a1e186afe1848be185b3e186b7; 0xe18487e185a1e186afe1848ce185a1e18480e185aee186a8; 0xe18487e185a1e186afe1848ce185a5e186ab; 0xe18487e185a1e186afe18490e185a9e186b8; 0xe18487e185a1e186afe18491e185ad; 0xe18487e185a1e186b7e18492e185a1e18482e185b3e186af; 0xe18487e185a1e186b8e18480e185b3e18485e185b3e186ba;
  0xe18487e185a1e186b8e18486e185a1e186ba; 0xe18487e185a1e186b8e18489e185a1e186bc; 0xe18487e185a1e186b8e18489e185a9e18780; 0xe18487e185a1e186bce18480e185b3e186b7; 0xe18487e185a1e186bce18486e185a7e186ab; 0xe18487e185a1e186bce18486e185aee186ab; 0xe18487e185a1e186bce18487e185a1e18483e185a1e186a8; 0xe18487e185a1e186bce18487e185a5e186b8;
  0xe18487e185a1e186bce18489e185a9e186bc; 0xe18487e185a1e186bce18489e185b5e186a8; 0xe18487e185a1e186bce1848be185a1e186ab; 0xe18487e185a1e186bce1848be185aee186af; 0xe18487e185a1e186bce1848ce185b5; 0xe18487e185a1e186bce18492e185a1e186a8; 0xe18487e185a1e186bce18492e185a2; 0xe18487e185a1e186bce18492e185a3e186bc;
  0xe18487e185a2e18480e185a7e186bc; 0xe18487e185a2e18481e185a9e186b8; 0xe18487e185a2e18483e185a1e186af; 0xe18487e185a2e18483e185b3e18486e185b5e186abe18490e185a5e186ab; 0xe18487e185a2e186a8e18483e185aee18489e185a1e186ab; 0xe18487e185a2e186a8e18489e185a2e186a8; 0xe18487e185a2e186a8e18489e185a5e186bc; 0xe18487e185a2e186a8e1848be185b5e186ab;
  0xe18487e185a2e186a8e1848ce185a6; 0xe18487e185a2e186a8e18492e185aae1848ce185a5e186b7; 0xe18487e185a5e18485e185b3e186ba; 0xe18487e185a5e18489e185a5e186ba; 0xe18487e185a5e18490e185b3e186ab; 0xe18487e185a5e186abe18480e185a2; 0xe18487e185a5e186abe1848be185a7e186a8; 0xe18487e185a5e186abe1848ce185b5;
  0xe18487e185a5e186abe18492e185a9; 0xe18487e185a5e186afe18480e185b3e186b7; 0xe18487e185a5e186afe18485e185a6; 0xe18487e185a5e186afe1848ae185a5; 0xe18487e185a5e186b7e1848be185b1; 0xe18487e185a5e186b7e1848be185b5e186ab; 0xe18487e185a5e186b7e1848ce185ac; 0xe18487e185a5e186b8e18485e185b2e186af;
  0xe18487e185a5e186b8e1848be185afe186ab; 0xe18487e185a5e186b8e1848ce185a5e186a8; 0xe18487e185a5e186b8e1848ee185b5e186a8; 0xe18487e185a6e1848be185b5e1848ce185b5e186bc; 0xe18487e185a6e186afe18490e185b3; 0xe18487e185a7e186abe18480e185a7e186bc; 0xe18487e185a7e186abe18483e185a9e186bc; 0xe18487e185a7e186abe18486e185a7e186bc;
  0xe18487e185a7e186abe18489e185b5e186ab; 0xe18487e185a7e186abe18492e185a9e18489e185a1; 0xe18487e185a7e186abe18492e185aa; 0xe18487e185a7e186afe18483e185a9; 0xe18487e185a7e186afe18486e185a7e186bc; 0xe18487e185a7e186afe1848be185b5e186af; 0xe18487e185a7e186bce18489e185b5e186af; 0xe18487e185a7e186bce1848be185a1e18485e185b5;
  0xe18487e185a7e186bce1848be185afe186ab; 0xe18487e185a9e18480e185aae186ab; 0xe18487e185a9e18482e185a5e18489e185b3; 0xe18487e185a9e18485e185a1e18489e185a2e186a8; 0xe18487e185a9e18485e185a1e186b7; 0xe18487e185a9e18485e185b3e186b7; 0xe18487e185a9e18489e185a1e186bc; 0xe18487e185a9e1848be185a1e186ab;
  0xe18487e185a9e1848ce185a1e18480e185b5; 0xe18487e185a9e1848ce185a1e186bc; 0xe18487e185a9e1848ce185a5e186ab; 0xe18487e185a9e1848ce185a9e186ab; 0xe18487e185a9e18490e185a9e186bc; 0xe18487e185a9e18491e185a7e186abe1848ce185a5e186a8; 0xe18487e185a9e18492e185a5e186b7; 0xe18487e185a9e186a8e18483e185a9;
  0xe18487e185a9e186a8e18489e185a1; 0xe18487e185a9e186a8e18489e185aee186bce1848be185a1; 0xe18487e185a9e186a8e18489e185b3e186b8; 0xe18487e185a9e186a9e1848be185b3e186b7; 0xe18487e185a9e186abe18480e185a7e186a8e1848ce185a5e186a8; 0xe18487e185a9e186abe18485e185a2; 0xe18487e185a9e186abe18487e185ae; 0xe18487e185a9e186abe18489e185a1;
  0xe18487e185a9e186abe18489e185a5e186bc; 0xe18487e185a9e186abe1848be185b5e186ab; 0xe18487e185a9e186abe1848ce185b5e186af; 0xe18487e185a9e186afe18491e185a6e186ab; 0xe18487e185a9e186bce18489e185a1; 0xe18487e185a9e186bce1848ce185b5; 0xe18487e185a9e186bce18490e185ae; 0xe18487e185aee18480e185b3e186ab;
  0xe18487e185aee18481e185b3e18485e185a5e1848be185aee186b7; 0xe18487e185aee18483e185a1e186b7; 0xe18487e185aee18483e185a9e186bce18489e185a1e186ab; 0xe18487e185aee18486e185aee186ab; 0xe18487e185aee18487e185aee186ab; 0xe18487e185aee18489e185a1e186ab; 0xe18487e185aee18489e185a1e186bc; 0xe18487e185aee1848be185a5e186bf;
  0xe18487e185aee1848be185b5e186ab; 0xe18487e185aee1848ce185a1e186a8e1848be185ade186bc; 0xe18487e185aee1848ce185a1e186bc; 0xe18487e185aee1848ce185a5e186bc; 0xe18487e185aee1848ce185a9e186a8; 0xe18487e185aee1848ce185b5e18485e185a5e186abe18492e185b5; 0xe18487e185aee1848ee185b5e186ab; 0xe18487e185aee18490e185a1e186a8;
  0xe18487e185aee18491e185aee186b7; 0xe18487e185aee18492e185ace1848ce185a1e186bc; 0xe18487e185aee186a8e18487e185ae; 0xe18487e185aee186a8e18492e185a1e186ab; 0xe18487e185aee186abe18482e185a9; 0xe18487e185aee186abe18485e185a3e186bc; 0xe18487e185aee186abe18485e185b5; 0xe18487e185aee186abe18486e185a7e186bc;
  0xe18487e185aee186abe18489e185a5e186a8; 0xe18487e185aee186abe1848be185a3; 0xe18487e185aee186abe1848be185b1e18480e185b5; 0xe18487e185aee186abe18491e185b5e186af; 0xe18487e185aee186abe18492e185a9e186bce18489e185a2e186a8; 0xe18487e185aee186afe18480e185a9e18480e185b5; 0xe18487e185aee186afe18480e185aa; 0xe18487e185aee186afe18480e185ad;
  0xe18487e185aee186afe18481e185a9e186be; 0xe18487e185aee186afe18486e185a1e186ab; 0xe18487e185aee186afe18487e185a5e186b8; 0xe18487e185aee186afe18487e185b5e186be; 0xe18487e185aee186afe1848be185a1e186ab; 0xe18487e185aee186afe1848be185b5e1848be185b5e186a8; 0xe18487e185aee186afe18492e185a2e186bc; 0xe18487e185b3e18485e185a2e186abe18483e185b3;
  0xe18487e185b5e18480e185b3e186a8; 0xe18487e185b5e18482e185a1e186ab; 0xe18487e185b5e18482e185b5e186af; 0xe18487e185b5e18483e185aee186afe18480e185b5; 0xe18487e185b5e18483e185b5e1848be185a9; 0xe18487e185b5e18485e185a9e18489e185a9; 0xe18487e185b5e18486e185a1e186ab; 0xe18487e185b5e18486e185a7e186bc;
  0xe18487e185b5e18486e185b5e186af; 0xe18487e185b5e18487e185a1e18485e185a1e186b7; 0xe18487e185b5e18487e185b5e186b7e18487e185a1e186b8; 0xe18487e185b5e18489e185a1e186bc; 0xe18487e185b5e1848be185ade186bc; 0xe18487e185b5e1848be185b2e186af; 0xe18487e185b5e1848ce185aee186bc; 0xe18487e185b5e18490e185a1e18486e185b5e186ab;
  0xe18487e185b5e18491e185a1e186ab; 0xe18487e185b5e186afe18483e185b5e186bc; 0xe18487e185b5e186bae18486e185aee186af; 0xe18487e185b5e186bae18487e185a1e186bce1848be185aee186af; 0xe18487e185b5e186bae1848ce185aee186afe18480e185b5; 0xe18487e185b5e186bee18481e185a1e186af; 0xe18488e185a1e186afe18480e185a1e186abe18489e185a2e186a8; 0xe18488e185a1e186afe18485e185a2;
  0xe18488e185a1e186afe18485e185b5; 0xe18489e185a1e18480e185a5e186ab; 0xe18489e185a1e18480e185a8e1848ce185a5e186af; 0xe18489e185a1e18482e185a1e1848be185b5; 0xe18489e185a1e18482e185a3e186bc; 0xe18489e185a1e18485e185a1e186b7; 0xe18489e185a1e18485e185a1e186bc; 0xe18489e185a1e18485e185b5e186b8;
  0xe18489e185a1e18486e185a9e18482e185b5e186b7; 0xe18489e185a1e18486e185aee186af; 0xe18489e185a1e18487e185a1e186bc; 0xe18489e185a1e18489e185a1e186bc; 0xe18489e185a1e18489e185a2e186bce18492e185aae186af; 0xe18489e185a1e18489e185a5e186af; 0xe18489e185a1e18489e185b3e186b7; 0xe18489e185a1e18489e185b5e186af;
  0xe18489e185a1e1848be185a5e186b8; 0xe18489e185a1e1848be185ade186bc; 0xe18489e185a1e1848be185afe186af; 0xe18489e185a1e1848ce185a1e186bc; 0xe18489e185a1e1848ce185a5e186ab; 0xe18489e185a1e1848ce185b5e186ab; 0xe18489e185a1e1848ee185a9e186ab; 0xe18489e185a1e1848ee185aee186abe18480e185b5;
  0xe18489e185a1e18490e185a1e186bc; 0xe18489e185a1e18490e185aee18485e185b5; 0xe18489e185a1e18492e185b3e186af; 0xe18489e185a1e186abe18480e185b5e186af; 0xe18489e185a1e186abe18487e185aee1848be185b5e186abe18480e185aa; 0xe18489e185a1e186abe1848be185a5e186b8; 0xe18489e185a1e186abe1848ee185a2e186a8; 0xe18489e185a1e186afe18485e185b5e186b7;
  0xe18489e185a1e186afe1848be185b5e186ab; 0xe18489e185a1e186afe1848de185a1e186a8; 0xe18489e185a1e186b7e18480e185a8e18490e185a1e186bc; 0xe18489e185a1e186b7e18480e185aee186a8; 0xe18489e185a1e186b7e18489e185b5e186b8; 0xe18489e185a1e186b7e1848be185afe186af; 0xe18489e185a1e186b7e1848ee185a9e186ab; 0xe18489e185a1e186bce18480e185aae186ab;
  0xe18489e185a1e186bce18480e185b3e186b7; 0xe18489e185a1e186bce18483e185a2; 0xe18489e185a1e186bce18485e185b2; 0xe18489e185a1e186bce18487e185a1e186abe18480e185b5; 0xe18489e185a1e186bce18489e185a1e186bc; 0xe18489e185a1e186bce18489e185b5e186a8; 0xe18489e185a1e186bce1848be185a5e186b8; 0xe18489e185a1e186bce1848be185b5e186ab;
  0xe18489e185a1e186bce1848ce185a1; 0xe18489e185a1e186bce1848ce185a5e186b7; 0xe18489e185a1e186bce1848ee185a5; 0xe18489e185a1e186bce1848ee185ae; 0xe18489e185a1e186bce18490e185a2; 0xe18489e185a1e186bce18491e185ad; 0xe18489e185a1e186bce18491e185aee186b7; 0xe18489e185a1e186bce18492e185aae186bc;
  0xe18489e185a2e18487e185a7e186a8; 0xe18489e185a2e186a8e18481e185a1e186af; 0xe18489e185a2e186a8e1848be185a7e186abe18491e185b5e186af; 0xe18489e185a2e186bce18480e185a1e186a8; 0xe18489e185a2e186bce18486e185a7e186bc; 0xe18489e185a2e186bce18486e185aee186af; 0xe18489e185a2e186bce18487e185a1e186bce18489e185a9e186bc; 0xe18489e185a2e186bce18489e185a1e186ab;
  0xe18489e185a2e186bce18489e185a5e186ab; 0xe18489e185a2e186bce18489e185b5e186ab; 0xe18489e185a2e186bce1848be185b5e186af; 0xe18489e185a2e186bce18492e185aae186af; 0xe18489e185a5e18485e185a1e186b8; 0xe18489e185a5e18485e185b3e186ab; 0xe18489e185a5e18486e185a7e186bc; 0xe18489e185a5e18486e185b5e186ab;
  0xe18489e185a5e18487e185b5e18489e185b3; 0xe18489e185a5e1848be185a3e186bc; 0xe18489e185a5e1848be185aee186af; 0xe18489e185a5e1848ce185a5e186a8; 0xe18489e185a5e1848ce185a5e186b7; 0xe18489e185a5e1848de185a9e186a8; 0xe18489e185a5e1848fe185b3e186af; 0xe18489e185a5e186a8e18489e185a1;
  0xe18489e185a5e186a8e1848be185b2; 0xe18489e185a5e186abe18480e185a5; 0xe18489e185a5e186abe18486e185aee186af; 0xe18489e185a5e186abe18487e185a2; 0xe18489e185a5e186abe18489e185a2e186bc; 0xe18489e185a5e186abe18489e185ae; 0xe18489e185a5e186abe1848be185afe186ab; 0xe18489e185a5e186abe1848ce185a1e186bc;
  0xe18489e185a5e186abe1848ce185a5e186ab; 0xe18489e185a5e186abe18490e185a2e186a8; 0xe18489e185a5e186abe18491e185aee186bce18480e185b5; 0xe18489e185a5e186afe18480e185a5e1848ce185b5; 0xe18489e185a5e186afe18482e185a1e186af; 0xe18489e185a5e186afe18485e185a5e186bce18490e185a1e186bc; 0xe18489e185a5e186afe18486e185a7e186bc; 0xe18489e185a5e186afe18486e185aee186ab;
  0xe18489e185a5e186afe18489e185a1; 0xe18489e185a5e186afe1848be185a1e186a8e18489e185a1e186ab; 0xe18489e185a5e186afe1848ee185b5; 0xe18489e185a5e186afe18490e185a1e186bc; 0xe18489e185a5e186b8e1848ae185b5; 0xe18489e185a5e186bce18480e185a9e186bc; 0xe18489e185a5e186bce18483e185a1e186bc; 0xe18489e185a5e186bce18486e185a7e186bc;
  0xe18489e185a5e186bce18487e185a7e186af; 0xe18489e185a5e186bce1848be185b5e186ab; 0xe18489e185a5e186bce1848ce185a1e186bc; 0xe18489e185a5e186bce1848ce185a5e186a8; 0xe18489e185a5e186bce1848ce185b5e186af; 0xe18489e185a5e186bce18492e185a1e186b7; 0xe18489e185a6e18480e185b3e186b7; 0xe18489e185a6e18486e185b5e18482e185a1;
  0xe18489e185a6e18489e185a1e186bc; 0xe18489e185a6e1848be185afe186af; 0xe18489e185a6e1848ce185a9e186bce18483e185a2e1848be185aae186bc; 0xe18489e185a6e18490e185a1e186a8; 0xe18489e185a6e186abe18490e185a5; 0xe18489e185a6e186abe18490e185b5e18486e185b5e18490e185a5; 0xe18489e185a6e186bae1848de185a2; 0xe18489e185a9e18480e185b2e18486e185a9;
  0xe18489e185a9e18480e185b3e186a8e1848ce185a5e186a8; 0xe18489e185a9e18480e185b3e186b7; 0xe18489e185a9e18482e185a1e18480e185b5; 0xe18489e185a9e18482e185a7e186ab; 0xe18489e185a9e18483e185b3e186a8; 0xe18489e185a9e18486e185a1e186bc; 0xe18489e185a9e18486e185aee186ab; 0xe18489e185a9e18489e185a5e186af;
  0xe18489e185a9e18489e185a9e186a8; 0xe18489e185a9e1848be185a1e18480e185aa; 0xe18489e185a9e1848be185ade186bc; 0xe18489e185a9e1848be185afe186ab; 0xe18489e185a9e1848be185b3e186b7; 0xe18489e185a9e1848ce185aee186bce18492e185b5; 0xe18489e185a9e1848ce185b5e18491e185aee186b7; 0xe18489e185a9e1848ce185b5e186af;
  0xe18489e185a9e18491e185aee186bc; 0xe18489e185a9e18492e185a7e186bc; 0xe18489e185a9e186a8e18483e185a1e186b7; 0xe18489e185a9e186a8e18483e185a9; 0xe18489e185a9e186a8e1848be185a9e186ba; 0xe18489e185a9e186abe18480e185a1e18485e185a1e186a8; 0xe18489e185a9e186abe18480e185b5e186af; 0xe18489e185a9e186abe18482e185a7;
  0xe18489e185a9e186abe18482e185b5e186b7; 0xe18489e185a9e186abe18483e185b3e186bc; 0xe18489e185a9e186abe18486e185a9e186a8; 0xe18489e185a9e186abe18488e185a7e186a8; 0xe18489e185a9e186abe18489e185b5e186af; 0xe18489e185a9e186abe1848ce185b5e186af; 0xe18489e185a9e186abe18490e185a9e186b8; 0xe18489e185a9e186abe18492e185a2;
  0xe18489e185a9e186afe1848ce185b5e186a8e18492e185b5; 0xe18489e185a9e186b7e1848ae185b5; 0xe18489e185a9e186bce1848be185a1e1848ce185b5; 0xe18489e185a9e186bce1848be185b5; 0xe18489e185a9e186bce18491e185a7e186ab; 0xe18489e185ace18480e185a9e18480e185b5; 0xe18489e185ade18491e185b5e186bc; 0xe18489e185aee18480e185a5e186ab;
  0xe18489e185aee18482e185a7e186ab; 0xe18489e185aee18483e185a1e186ab; 0xe18489e185aee18483e185a9e186bae18486e185aee186af; 0xe18489e185aee18483e185a9e186bce1848ce185a5e186a8; 0xe18489e185aee18486e185a7e186ab; 0xe18489e185aee18486e185a7e186bc; 0xe18489e185aee18487e185a1e186a8; 0xe18489e185aee18489e185a1e186bc;
  0xe18489e185aee18489e185a5e186a8; 0xe18489e185aee18489e185aee186af; 0xe18489e185aee18489e185b5e18485e185a9; 0xe18489e185aee1848be185a5e186b8; 0xe18489e185aee1848be185a7e186b7; 0xe18489e185aee1848be185a7e186bc; 0xe18489e185aee1848be185b5e186b8; 0xe18489e185aee1848ce185aee186ab;
  0xe18489e185aee1848ce185b5e186b8; 0xe18489e185aee1848ee185aee186af; 0xe18489e185aee1848fe185a5e186ba; 0xe18489e185aee18491e185b5e186af; 0xe18489e185aee18492e185a1e186a8; 0xe18489e185aee18492e185a5e186b7e18489e185a2e186bc; 0xe18489e185aee18492e185aae18480e185b5; 0xe18489e185aee186a8e18482e185a7;
  0xe18489e185aee186a8e18489e185a9; 0xe18489e185aee186a8e1848ce185a6; 0xe18489e185aee186abe18480e185a1e186ab; 0xe18489e185aee186abe18489e185a5; 0xe18489e185aee186abe18489e185ae; 0xe18489e185aee186abe18489e185b5e186a8e18480e185a1e186ab; 0xe18489e185aee186abe1848be185b1; 0xe18489e185aee186aee18480e185a1e18485e185a1e186a8;
  0xe18489e185aee186afe18487e185a7e186bc; 0xe18489e185aee186afe1848ce185b5e186b8; 0xe18489e185aee186bae1848ce185a1; 0xe18489e185b3e18482e185b5e186b7; 0xe18489e185b3e18486e185aee186af; 0xe18489e185b3e18489e185b3e18485e185a9; 0xe18489e185b3e18489e185b3e186bc; 0xe18489e185b3e1848be185b0e18490e185a5;
  0xe18489e185b3e1848be185b1e1848ee185b5; 0xe18489e185b3e1848fe185a6e1848be185b5e18490e185b3; 0xe18489e185b3e18490e185b2e18483e185b5e1848be185a9; 0xe18489e185b3e18490e185b3e18485e185a6e18489e185b3; 0xe18489e185b3e18491e185a9e1848ee185b3; 0xe18489e185b3e186afe1848de185a5e186a8; 0xe18489e185b3e186afe18491e185b3e186b7; 0xe18489e185b3e186b8e18480e185aae186ab;
  0xe18489e185b3e186b8e18480e185b5; 0xe18489e185b3e186bce18480e185a2e186a8; 0xe18489e185b3e186bce18485e185b5; 0xe18489e185b3e186bce18487e185ae; 0xe18489e185b3e186bce1848be185ade186bce1848ee185a1; 0xe18489e185b3e186bce1848ce185b5e186ab; 0xe18489e185b5e18480e185a1e186a8; 0xe18489e185b5e18480e185a1e186ab;
  0xe18489e185b5e18480e185a9e186af; 0xe18489e185b5e18480e185b3e186b7e1848ee185b5; 0xe18489e185b5e18482e185a1e18485e185b5e1848be185a9; 0xe18489e185b5e18483e185a2e186a8; 0xe18489e185b5e18485e185b5e1848ce185b3; 0xe18489e185b5e18486e185a6e186abe18490e185b3; 0xe18489e185b5e18486e185b5e186ab; 0xe18489e185b5e18487e185aee18486e185a9;
  0xe18489e185b5e18489e185a5e186ab; 0xe18489e185b5e18489e185a5e186af; 0xe18489e185b5e18489e185b3e18490e185a6e186b7; 0xe18489e185b5e1848be185a1e18487e185a5e1848ce185b5; 0xe18489e185b5e1848be185a5e18486e185a5e18482e185b5; 0xe18489e185b5e1848be185afe186af; 0xe18489e185b5e1848be185b5e186ab; 0xe18489e185b5e1848be185b5e186af;
  0xe18489e185b5e1848ce185a1e186a8; 0xe18489e185b5e1848ce185a1e186bc; 0xe18489e185b5e1848ce185a5e186af; 0xe18489e185b5e1848ce185a5e186b7; 0xe18489e185b5e1848ce185aee186bc; 0xe18489e185b5e1848ce185b3e186ab; 0xe18489e185b5e1848ce185b5e186b8; 0xe18489e185b5e1848ee185a5e186bc;
  0xe18489e185b5e18492e185a1e186b8; 0xe18489e185b5e18492e185a5e186b7; 0xe18489e185b5e186a8e18480e185ae; 0xe18489e185b5e186a8e18480e185b5; 0xe18489e185b5e186a8e18483e185a1e186bc; 0xe18489e185b5e186a8e18485e185a3e186bc; 0xe18489e185b5e186a8e18485e185ade18491e185aee186b7; 0xe18489e185b5e186a8e18486e185aee186af;
  0xe18489e185b5e186a8e18488e185a1e186bc; 0xe18489e185b5e186a8e18489e185a1; 0xe18489e185b5e186a8e18489e185a2e186bce18492e185aae186af; 0xe18489e185b5e186a8e1848ee185a9; 0xe18489e185b5e186a8e18490e185a1e186a8; 0xe18489e185b5e186a8e18491e185aee186b7; 0xe18489e185b5e186abe18480e185a9; 0xe18489e185b5e186abe18480e185b2;
  0xe18489e185b5e186abe18482e185a7e186b7; 0xe18489e185b5e186abe18486e185aee186ab; 0xe18489e185b5e186abe18487e185a1e186af; 0xe18489e185b5e186abe18487e185b5; 0xe18489e185b5e186abe18489e185a1; 0xe18489e185b5e186abe18489e185a6; 0xe18489e185b5e186abe1848be185ade186bc; 0xe18489e185b5e186abe1848ce185a6e18491e185aee186b7;
  0xe18489e185b5e186abe1848ee185a5e186bc; 0xe18489e185b5e186abe1848ee185a6; 0xe18489e185b5e186abe18492e185aa; 0xe18489e185b5e186afe18480e185a1e186b7; 0xe18489e185b5e186afe18482e185a2; 0xe18489e185b5e186afe18485e185a7e186a8; 0xe18489e185b5e186afe18485e185a8; 0xe18489e185b5e186afe18486e185a1e186bc;
  0xe18489e185b5e186afe18489e185ae; 0xe18489e185b5e186afe18489e185b3e186b8; 0xe18489e185b5e186afe18489e185b5; 0xe18489e185b5e186afe1848ce185a1e186bc; 0xe18489e185b5e186afe1848ce185a5e186bc; 0xe18489e185b5e186afe1848ce185b5e186afe1848ce185a5e186a8; 0xe18489e185b5e186afe1848ee185a5e186ab; 0xe18489e185b5e186afe1848ee185a6;
  0xe18489e185b5e186afe1848fe185a5e186ba; 0xe18489e185b5e186afe18490e185a2; 0xe18489e185b5e186afe18491e185a2; 0xe18489e185b5e186afe18492e185a5e186b7; 0xe18489e185b5e186afe18492e185a7e186ab; 0xe18489e185b5e186b7e18485e185b5; 0xe18489e185b5e186b7e18487e185aee18485e185b3e186b7; 0xe18489e185b5e186b7e18489e185a1;
  0xe18489e185b5e186b7e1848ce185a1e186bc; 0xe18489e185b5e186b7e1848ce185a5e186bc; 0xe18489e185b5e186b7e18491e185a1e186ab; 0xe1848ae185a1e186bce18483e185aee186bce1848be185b5; 0xe1848ae185b5e18485e185b3e186b7; 0xe1848ae185b5e1848be185a1e186ba; 0xe1848be185a1e18480e185a1e1848ae185b5; 0xe1848be185a1e18482e185a1e1848be185aee186abe18489e185a5;
  0xe1848be185a1e18483e185b3e18482e185b5e186b7; 0xe1848be185a1e18483e185b3e186af; 0xe1848be185a1e18489e185b1e1848be185aee186b7; 0xe1848be185a1e18489e185b3e18491e185a1e186afe18490e185b3; 0xe1848be185a1e18489e185b5e1848be185a1; 0xe1848be185a1e1848be185aee186afe18485e185a5; 0xe1848be185a1e1848ce185a5e1848ae185b5; 0xe1848be185a1e1848ce185aee186b7e18486e185a1;
  0xe1848be185a1e1848ce185b5e186a8; 0xe1848be185a1e1848ee185b5e186b7; 0xe1848be185a1e18491e185a1e18490e185b3; 0xe1848be185a1e18491e185b3e18485e185b5e1848fe185a1; 0xe1848be185a1e18491e185b3e186b7; 0xe1848be185a1e18492e185a9e186b8; 0xe1848be185a1e18492e185b3e186ab; 0xe1848be185a1e186a8e18480e185b5;
  0xe1848be185a1e186a8e18486e185a9e186bc; 0xe1848be185a1e186a8e18489e185ae; 0xe1848be185a1e186abe18480e185a2; 0xe1848be185a1e186abe18480e185a7e186bc; 0xe1848be185a1e186abe18480e185aa; 0xe1848be185a1e186abe18482e185a2; 0xe1848be185a1e186abe18482e185a7e186bc; 0xe1848be185a1e186abe18483e185a9e186bc;
  0xe1848be185a1e186abe18487e185a1e186bc; 0xe1848be185a1e186abe18487e185ae; 0xe1848be185a1e186abe1848ce185ae; 0xe1848be185a1e186afe18485e185aee18486e185b5e18482e185b2e186b7; 0xe1848be185a1e186afe1848fe185a9e1848be185a9e186af; 0xe1848be185a1e186b7e18489e185b5; 0xe1848be185a1e186b7e1848fe185a5e186ba; 0xe1848be185a1e186b8e18485e185a7e186a8;
  0xe1848be185a1e18781e18482e185a1e186af; 0xe1848be185a1e18781e18486e185aee186ab; 0xe1848be185a2e1848be185b5e186ab; 0xe1848be185a2e1848ce185a5e186bc; 0xe1848be185a2e186a8e18489e185ae; 0xe1848be185a2e186afe18487e185a5e186b7; 0xe1848be185a3e18480e185a1e186ab; 0xe1848be185a3e18483e185a1e186ab;
  0xe1848be185a3e1848be185a9e186bc; 0xe1848be185a3e186a8e18480e185a1e186ab; 0xe1848be185a3e186a8e18480e185aee186a8; 0xe1848be185a3e186a8e18489e185a9e186a8; 0xe1848be185a3e186a8e18489e185ae; 0xe1848be185a3e186a8e1848ce185a5e186b7; 0xe1848be185a3e186a8e18491e185aee186b7; 0xe1848be185a3e186a8e18492e185a9e186abe18482e185a7;
  0xe1848be185a3e186bce18482e185a7e186b7; 0xe1848be185a3e186bce18485e185a7e186a8; 0xe1848be185a3e186bce18486e185a1e186af; 0xe1848be185a3e186bce18487e185a2e1848ee185ae; 0xe1848be185a3e186bce1848ce185ae; 0xe1848be185a3e186bce18491e185a1; 0xe1848be185a5e18483e185aee186b7; 0xe1848be185a5e18485e185a7e1848be185aee186b7;
  0xe1848be185a5e18485e185b3e186ab; 0xe1848be185a5e1848ce185a6e186bae18487e185a1e186b7; 0xe1848be185a5e1848de185a2e186bbe18483e185b3e186ab; 0xe1848be185a5e1848de185a5e18483e185a1e18480e185a1; 0xe1848be185a5e1848de185a5e186abe1848ce185b5; 0xe1848be185a5e186abe18482e185b5; 0xe1848be185a5e186abe18483e185a5e186a8; 0xe1848be185a5e186abe18485e185a9e186ab;
  0xe1848be185a5e186abe1848be185a5; 0xe1848be185a5e186afe18480e185aee186af; 0xe1848be185a5e186afe18485e185b3e186ab; 0xe1848be185a5e186afe1848be185b3e186b7; 0xe1848be185a5e186afe18491e185b5e186ba; 0xe1848be185a5e186b7e18486e185a1; 0xe1848be185a5e186b8e18486e185ae; 0xe1848be185a5e186b8e1848ce185a9e186bc;
  0xe1848be185a5e186b8e1848ee185a6; 0xe1848be185a5e186bce18483e185a5e186bce1848be185b5; 0xe1848be185a5e186bce18486e185a1e186bc; 0xe1848be185a5e186bce18490e185a5e18485e185b5; 0xe1848be185a5e186bde18480e185b3e1848ce185a6; 0xe1848be185a6e18482e185a5e1848ce185b5; 0xe1848be185a6e1848be185a5e1848fe185a5e186ab; 0xe1848be185a6e186abe1848ce185b5e186ab;
  0xe1848be185a7e18480e185a5e186ab; 0xe1848be185a7e18480e185a9e18489e185a2e186bc; 0xe1848be185a7e18480e185aae186ab; 0xe1848be185a7e18480e185aee186ab; 0xe1848be185a7e18480e185afe186ab; 0xe1848be185a7e18483e185a2e18489e185a2e186bc; 0xe1848be185a7e18483e185a5e186b2; 0xe1848be185a7e18483e185a9e186bce18489e185a2e186bc;
  0xe1848be185a7e18483e185b3e186ab; 0xe1848be185a7e18485e185a9e186ab; 0xe1848be185a7e18485e185b3e186b7; 0xe1848be185a7e18489e185a5e186ba; 0xe1848be185a7e18489e185a5e186bc; 0xe1848be185a7e1848be185aae186bc; 0xe1848be185a7e1848be185b5e186ab; 0xe1848be185a7e1848ce185a5e186abe18492e185b5;
  0xe1848be185a7e1848ce185b5e186a8e1848be185afe186ab; 0xe1848be185a7e18492e185a1e186a8e18489e185a2e186bc; 0xe1848be185a7e18492e185a2e186bc; 0xe1848be185a7e186a8e18489e185a1; 0xe1848be185a7e186a8e18489e185b5; 0xe1848be185a7e186a8e18492e185a1e186af; 0xe1848be185a7e186abe18480e185a7e186af; 0xe1848be185a7e186abe18480e185ae;
  0xe1848be185a7e186abe18480e185b3e186a8; 0xe1848be185a7e186abe18480e185b5; 0xe1848be185a7e186abe18485e185a1e186a8; 0xe1848be185a7e186abe18489e185a5e186af; 0xe1848be185a7e186abe18489e185a6; 0xe1848be185a7e186abe18489e185a9e186a8; 0xe1848be185a7e186abe18489e185b3e186b8; 0xe1848be185a7e186abe1848be185a2;
  0xe1848be185a7e186abe1848be185a8e1848be185b5e186ab; 0xe1848be185a7e186abe1848be185b5e186ab; 0xe1848be185a7e186abe1848ce185a1e186bc; 0xe1848be185a7e186abe1848ce185ae; 0xe1848be185a7e186abe1848ee185aee186af; 0xe1848be185a7e186abe18491e185b5e186af; 0xe1848be185a7e186abe18492e185a1e186b8; 0xe1848be185a7e186abe18492e185b2;
  0xe1848be185a7e186afe18480e185b5; 0xe1848be185a7e186afe18486e185a2; 0xe1848be185a7e186afe18489e185ac; 0xe1848be185a7e186afe18489e185b5e186b7e18492e185b5; 0xe1848be185a7e186afe1848ce185a5e186bc; 0xe1848be185a7e186afe1848ee185a1; 0xe1848be185a7e186afe18492e185b3e186af; 0xe1848be185a7e186b7e18485e185a7;
  0xe1848be185a7e186b8e18489e185a5; 0xe1848be185a7e186bce18480e185aee186a8; 0xe1848be185a7e186bce18482e185a1e186b7; 0xe1848be185a7e186bce18489e185a1e186bc; 0xe1848be185a7e186bce1848be185a3e186bc; 0xe1848be185a7e186bce1848be185a7e186a8; 0xe1848be185a7e186bce1848be185aee186bc; 0xe1848be185a7e186bce1848be185afe186abe18492e185b5;
  0xe1848be185a7e186bce18492e185a1; 0xe1848be185a7e186bce18492e185a3e186bc; 0xe1848be185a7e186bce18492e185a9e186ab; 0xe1848be185a7e186bce18492e185aa; 0xe1848be185a7e18781e18480e185aee18485e185b5; 0xe1848be185a7e18781e18487e185a1e186bc; 0xe1848be185a7e18781e1848ce185b5e186b8; 0xe1848be185a8e18480e185a1e186b7;
  0xe1848be185a8e18480e185b3e186b7; 0xe1848be185a8e18487e185a1e186bc; 0xe1848be185a8e18489e185a1e186ab; 0xe1848be185a8e18489e185a1e186bc; 0xe1848be185a8e18489e185a5e186ab; 0xe1848be185a8e18489e185aee186af; 0xe1848be185a8e18489e185b3e186b8; 0xe1848be185a8e18489e185b5e186a8e1848ce185a1e186bc;
  0xe1848be185a8e1848be185a3e186a8; 0xe1848be185a8e1848ce185a5e186ab; 0xe1848be185a8e1848ce185a5e186af; 0xe1848be185a8e1848ce185a5e186bc; 0xe1848be185a8e1848fe185a5e186abe18483e185a2; 0xe1848be185a8e186bae18482e185a1e186af; 0xe1848be185a9e18482e185b3e186af; 0xe1848be185a9e18485e185a1e186a8;
  0xe1848be185a9e18485e185a2e186bae18483e185a9e186bce1848be185a1e186ab; 0xe1848be185a9e18485e185a6e186abe1848ce185b5; 0xe1848be185a9e18485e185a9e1848ce185b5; 0xe1848be185a9e18485e185b3e186abe18487e185a1e186af; 0xe1848be185a9e18487e185b3e186ab; 0xe1848be185a9e18489e185b5e186b8; 0xe1848be185a9e1848be185a7e186b7; 0xe1848be185a9e1848be185afe186af;
  0xe1848be185a9e1848ce185a5e186ab; 0xe1848be185a9e1848ce185b5e186a8; 0xe1848be185a9e1848ce185b5e186bce1848be185a5; 0xe1848be185a9e18491e185a6e18485e185a1; 0xe1848be185a9e18491e185b5e18489e185b3e18490e185a6e186af; 0xe1848be185a9e18492e185b5e18485e185a7; 0xe1848be185a9e186a8e18489e185a1e186bc; 0xe1848be185a9e186a8e18489e185aee18489e185ae;
  0xe1848be185a9e186abe18480e185a1e186bd; 0xe1848be185a9e186abe18485e185a1e1848be185b5e186ab; 0xe1848be185a9e186abe18486e185a9e186b7; 0xe1848be185a9e186abe1848ce185a9e186bce1848be185b5e186af; 0xe1848be185a9e186abe18490e185a9e186bc; 0xe1848be185a9e186afe18480e185a1e1848be185b3e186af; 0xe1848be185a9e186afe18485e185b5e186b7e18491e185b5e186a8; 0xe1848be185a9e186afe18492e185a2;
  0xe1848be185a9e186bae1848ee185a1e18485e185b5e186b7; 0xe1848be185aae1848be185b5e18489e185a7e1848ee185b3; 0xe1848be185aae1848be185b5e186ab; 0xe1848be185aae186abe18489e185a5e186bc; 0xe1848be185aae186abe1848ce185a5e186ab; 0xe1848be185aae186bce18487e185b5; 0xe1848be185aae186bce1848ce185a1; 0xe1848be185abe18482e185a3e18492e185a1e18486e185a7e186ab;
  0xe1848be185abe186abe1848ce185b5; 0xe1848be185ace18480e185a1e186bae1848ce185b5e186b8; 0xe1848be185ace18480e185aee186a8; 0xe1848be185ace18485e185a9e1848be185aee186b7; 0xe1848be185ace18489e185a1e186b7e1848ee185a9e186ab; 0xe1848be185ace1848ee185aee186af; 0xe1848be185ace1848ee185b5e186b7; 0xe1848be185ace18492e185a1e186afe18486e185a5e18482e185b5;
  0xe1848be185ace186abe18487e185a1e186af; 0xe1848be185ace186abe18489e185a9e186ab; 0xe1848be185ace186abe1848de185a9e186a8; 0xe1848be185ade18480e185b3e186b7; 0xe1848be185ade1848be185b5e186af; 0xe1848be185ade1848ce185b3e186b7; 0xe1848be185ade1848ee185a5e186bc; 0xe1848be185ade186bce18480e185b5;
  0xe1848be185ade186bce18489e185a5; 0xe1848be185ade186bce1848be185a5; 0xe1848be185aee18489e185a1e186ab; 0xe1848be185aee18489e185a5e186ab; 0xe1848be185aee18489e185b3e186bc; 0xe1848be185aee1848be185a7e186abe18492e185b5; 0xe1848be185aee1848ce185a5e186bc; 0xe1848be185aee1848ee185a6e18480e185aee186a8;
  0xe1848be185aee18491e185a7e186ab; 0xe1848be185aee186abe18483e185a9e186bc; 0xe1848be185aee186abe18486e185a7e186bc; 0xe1848be185aee186abe18487e185a1e186ab; 0xe1848be185aee186abe1848ce185a5e186ab; 0xe1848be185aee186abe18492e185a2e186bc; 0xe1848be185aee186afe18489e185a1e186ab; 0xe1848be185aee186afe1848be185b3e186b7;
  0xe1848be185aee186b7e1848ce185b5e186a8e1848be185b5e186b7; 0xe1848be185aee186bae1848be185a5e18485e185b3e186ab; 0xe1848be185aee186bae1848be185b3e186b7; 0xe1848be185afe18482e185a1e186a8; 0xe1848be185afe186abe18480e185a9; 0xe1848be185afe186abe18485e185a2; 0xe1848be185afe186abe18489e185a5; 0xe1848be185afe186abe18489e185aee186bce1848be185b5;
  0xe1848be185afe186abe1848be185b5e186ab; 0xe1848be185afe186abe1848ce185a1e186bc; 0xe1848be185afe186abe18491e185b5e18489e185b3; 0xe1848be185afe186afe18480e185b3e186b8; 0xe1848be185afe186afe18483e185b3e1848fe185a5e186b8; 0xe1848be185afe186afe18489e185a6; 0xe1848be185afe186afe1848be185ade1848be185b5e186af; 0xe1848be185b0e1848be185b5e18490e185a5;
  0xe1848be185b1e18487e185a1e186ab; 0xe1848be185b1e18487e185a5e186b8; 0xe1848be185b1e18489e185a5e186bc; 0xe1848be185b1e1848be185afe186ab; 0xe1848be185b1e18492e185a5e186b7; 0xe1848be185b1e18492e185a7e186b8; 0xe1848be185b1e186bae18489e185a1e18485e185a1e186b7; 0xe1848be185b2e18482e185a1e186abe18492e185b5;
  0xe1848be185b2e18485e185a5e186b8; 0xe1848be185b2e18486e185a7e186bc; 0xe1848be185b2e18486e185aee186af; 0xe1848be185b2e18489e185a1e186ab; 0xe1848be185b2e1848ce185a5e186a8; 0xe1848be185b2e1848ee185b5e1848be185afe186ab; 0xe1848be185b2e18492e185a1e186a8; 0xe1848be185b2e18492e185a2e186bc;
  0xe1848be185b2e18492e185a7e186bc; 0xe1848be185b2e186a8e18480e185aee186ab; 0xe1848be185b2e186a8e18489e185a1e186bc; 0xe1848be185b2e186a8e18489e185b5e186b8; 0xe1848be185b2e186a8e1848ee185a6; 0xe1848be185b3e186abe18492e185a2e186bc; 0xe1848be185b3e186b7e18485e185a7e186a8; 0xe1848be185b3e186b7e18485e185ad;
  0xe1848be185b3e186b7e18487e185a1e186ab; 0xe1848be185b3e186b7e18489e185a5e186bc; 0xe1848be185b3e186b7e18489e185b5e186a8; 0xe1848be185b3e186b7e1848be185a1e186a8; 0xe1848be185b3e186b7e1848ce185ae; 0xe1848be185b4e18480e185a7e186ab; 0xe1848be185b4e18482e185a9e186ab; 0xe1848be185b4e18486e185aee186ab;
  0xe1848be185b4e18487e185a9e186a8; 0xe1848be185b4e18489e185b5e186a8; 0xe1848be185b4e18489e185b5e186b7; 0xe1848be185b4e1848be185ace18485e185a9; 0xe1848be185b4e1848be185ade186a8; 0xe1848be185b4e1848be185afe186ab; 0xe1848be185b4e18492e185a1e186a8; 0xe1848be185b5e18480e185a5e186ba;
  0xe1848be185b5e18480e185a9e186ba; 0xe1848be185b5e18482e185a7e186b7; 0xe1848be185b5e18482e185a9e186b7; 0xe1848be185b5e18483e185a1e186af; 0xe1848be185b5e18483e185a2e18485e185a9; 0xe1848be185b5e18483e185a9e186bc; 0xe1848be185b5e18485e185a5e18782e18480e185a6; 0xe1848be185b5e18485e185a7e186a8e18489e185a5;
  0xe1848be185b5e18485e185a9e186abe1848ce185a5e186a8; 0xe1848be185b5e18485e185b3e186b7; 0xe1848be185b5e18486e185b5e186ab; 0xe1848be185b5e18487e185a1e186afe18489e185a9; 0xe1848be185b5e18487e185a7e186af; 0xe1848be185b5e18487e185aee186af; 0xe1848be185b5e18488e185a1e186af; 0xe1848be185b5e18489e185a1e186bc;
  0xe1848be185b5e18489e185a5e186bc; 0xe1848be185b5e18489e185b3e186af; 0xe1848be185b5e1848be185a3e18480e185b5; 0xe1848be185b5e1848be185ade186bc; 0xe1848be185b5e1848be185aee186ba; 0xe1848be185b5e1848be185afe186af; 0xe1848be185b5e1848be185b3e186a8e18480e185a9; 0xe1848be185b5e1848be185b5e186a8;
  0xe1848be185b5e1848ce185a5e186ab; 0xe1848be185b5e1848ce185aee186bc; 0xe1848be185b5e18490e185b3e186aee18482e185a1e186af; 0xe1848be185b5e18490e185b3e186af; 0xe1848be185b5e18492e185a9e186ab; 0xe1848be185b5e186abe18480e185a1e186ab; 0xe1848be185b5e186abe18480e185a7e186a8; 0xe1848be185b5e186abe18480e185a9e186bc;
  0xe1848be185b5e186abe18480e185ae; 0xe1848be185b5e186abe18480e185b3e186ab; 0xe1848be185b5e186abe18480e185b5; 0xe1848be185b5e186abe18483e185a9; 0xe1848be185b5e186abe18485e185b2; 0xe1848be185b5e186abe18486e185aee186af; 0xe1848be185b5e186abe18489e185a2e186bc; 0xe1848be185b5e186abe18489e185ab;
  0xe1848be185b5e186abe1848be185a7e186ab; 0xe1848be185b5e186abe1848be185afe186ab; 0xe1848be185b5e186abe1848ce185a2; 0xe1848be185b5e186abe1848ce185a9e186bc; 0xe1848be185b5e186abe1848ee185a5e186ab; 0xe1848be185b5e186abe1848ee185a6; 0xe1848be185b5e186abe18490e185a5e18482e185a6e186ba; 0xe1848be185b5e186abe18492e185a1;
  0xe1848be185b5e186abe18492e185a7e186bc; 0xe1848be185b5e186afe18480e185a9e186b8; 0xe1848be185b5e186afe18480e185b5; 0xe1848be185b5e186afe18483e185a1e186ab; 0xe1848be185b5e186afe18483e185a2; 0xe1848be185b5e186afe18483e185b3e186bc; 0xe1848be185b5e186afe18487e185a1e186ab; 0xe1848be185b5e186afe18487e185a9e186ab;
  0xe1848be185b5e186afe18487e185ae; 0xe1848be185b5e186afe18489e185a1e186bc; 0xe1848be185b5e186afe18489e185a2e186bc; 0xe1848be185b5e186afe18489e185a9e186ab; 0xe1848be185b5e186afe1848be185ade1848be185b5e186af; 0xe1848be185b5e186afe1848be185afe186af; 0xe1848be185b5e186afe1848ce185a5e186bc; 0xe1848be185b5e186afe1848ce185a9e186bc;
  0xe1848be185b5e186afe1848ce185aee1848be185b5e186af; 0xe1848be185b5e186afe1848de185b5e186a8; 0xe1848be185b5e186afe1848ee185a6; 0xe1848be185b5e186afe1848ee185b5; 0xe1848be185b5e186afe18492e185a2e186bc; 0xe1848be185b5e186afe18492e185ace1848be185ade186bc; 0xe1848be185b5e186b7e18480e185b3e186b7; 0xe1848be185b5e186b7e18486e185ae;
  0xe1848be185b5e186b8e18483e185a2; 0xe1848be185b5e186b8e18485e185a7e186a8; 0xe1848be185b5e186b8e18486e185a1e186ba; 0xe1848be185b5e186b8e18489e185a1; 0xe1848be185b5e186b8e18489e185aee186af; 0xe1848be185b5e186b8e18489e185b5; 0xe1848be185b5e186b8e1848be185afe186ab; 0xe1848be185b5e186b8e1848ce185a1e186bc;
  0xe1848be185b5e186b8e18492e185a1e186a8; 0xe1848ce185a1e18480e185a1e1848be185ade186bc; 0xe1848ce185a1e18480e185a7e186a8; 0xe1848ce185a1e18480e185b3e186a8; 0xe1848ce185a1e18483e185a9e186bc; 0xe1848ce185a1e18485e185a1e186bc; 0xe1848ce185a1e18487e185aee18489e185b5e186b7; 0xe1848ce185a1e18489e185b5e186a8;
  0xe1848ce185a1e18489e185b5e186ab; 0xe1848ce185a1e1848be185a7e186ab; 0xe1848ce185a1e1848be185afe186ab; 0xe1848ce185a1e1848be185b2e186af; 0xe1848ce185a1e1848ce185a5e186abe18480e185a5; 0xe1848ce185a1e1848ce185a5e186bc; 0xe1848ce185a1e1848ce185a9e186abe18489e185b5e186b7; 0xe1848ce185a1e18491e185a1e186ab;
  0xe1848ce185a1e186a8e18480e185a1; 0xe1848ce185a1e186a8e18482e185a7e186ab; 0xe1848ce185a1e186a8e18489e185a5e186bc; 0xe1848ce185a1e186a8e1848be185a5e186b8; 0xe1848ce185a1e186a8e1848be185ade186bc; 0xe1848ce185a1e186a8e1848be185b3e186abe18484e185a1e186af; 0xe1848ce185a1e186a8e18491e185aee186b7; 0xe1848ce185a1e186abe18483e185b5;
  0xe1848ce185a1e186abe18484e185b3e186a8; 0xe1848ce185a1e186abe1848ee185b5; 0xe1848ce185a1e186afe18486e185a9e186ba; 0xe1848ce185a1e186b7e18481e185a1e186ab; 0xe1848ce185a1e186b7e18489e185aee18492e185a1e186b7; 0xe1848ce185a1e186b7e18489e185b5; 0xe1848ce185a1e186b7e1848be185a9e186ba; 0xe1848ce185a1e186b7e1848ce185a1e18485e185b5;
  0xe1848ce185a1e186b8e1848ce185b5; 0xe1848ce185a1e186bce18480e185aae186ab; 0xe1848ce185a1e186bce18480e185aee186ab; 0xe1848ce185a1e186bce18480e185b5e18480e185a1e186ab; 0xe1848ce185a1e186bce18485e185a2; 0xe1848ce185a1e186bce18485e185a8; 0xe1848ce185a1e186bce18485e185b3; 0xe1848ce185a1e186bce18486e185a1;
  0xe1848ce185a1e186bce18486e185a7e186ab; 0xe1848ce185a1e186bce18486e185a9; 0xe1848ce185a1e186bce18486e185b5; 0xe1848ce185a1e186bce18487e185b5; 0xe1848ce185a1e186bce18489e185a1; 0xe1848ce185a1e186bce18489e185a9; 0xe1848ce185a1e186bce18489e185b5e186a8; 0xe1848ce185a1e186bce1848be185a2e1848be185b5e186ab;
  0xe1848ce185a1e186bce1848be185b5e186ab; 0xe1848ce185a1e186bce1848ce185a5e186b7; 0xe1848ce185a1e186bce1848ee185a1; 0xe1848ce185a1e186bce18492e185a1e186a8e18480e185b3e186b7; 0xe1848ce185a2e18482e185b3e186bc; 0xe1848ce185a2e18488e185a1e186afe18485e185b5; 0xe1848ce185a2e18489e185a1e186ab; 0xe1848ce185a2e18489e185a2e186bc;
  0xe1848ce185a2e1848ce185a1e186a8e18482e185a7e186ab; 0xe1848ce185a2e1848ce185a5e186bc; 0xe1848ce185a2e1848ee185a2e18480e185b5; 0xe1848ce185a2e18491e185a1e186ab; 0xe1848ce185a2e18492e185a1e186a8; 0xe1848ce185a2e18492e185aae186afe1848be185ade186bc; 0xe1848ce185a5e18480e185a5e186ba; 0xe1848ce185a5e18480e185a9e18485e185b5;
  0xe1848ce185a5e18480e185a9e186ba; 0xe1848ce185a5e18482e185a7e186a8; 0xe1848ce185a5e18485e185a5e186ab; 0xe1848ce185a5e18485e185a5e18782e18480e185a6; 0xe1848ce185a5e18487e185a5e186ab; 0xe1848ce185a5e1848be185aee186af; 0xe1848ce185a5e1848ce185a5e186afe18485e185a9; 0xe1848ce185a5e1848ee185aee186a8;
  0xe1848ce185a5e186a8e18480e185b3e186a8; 0xe1848ce185a5e186a8e18483e185a1e186bce18492e185b5; 0xe1848ce185a5e186a8e18489e185a5e186bc; 0xe1848ce185a5e186a8e1848be185ade186bc; 0xe1848ce185a5e186a8e1848be185b3e186bc; 0xe1848ce185a5e186abe18480e185a2; 0xe1848ce185a5e186abe18480e185a9e186bc; 0xe1848ce185a5e186abe18480e185b5;
  0xe1848ce185a5e186abe18483e185a1e186af; 0xe1848ce185a5e186abe18485e185a1e18483e185a9; 0xe1848ce185a5e186abe18486e185a1e186bc; 0xe1848ce185a5e186abe18486e185aee186ab; 0xe1848ce185a5e186abe18487e185a1e186ab; 0xe1848ce185a5e186abe18487e185ae; 0xe1848ce185a5e186abe18489e185a6; 0xe1848ce185a5e186abe18489e185b5;
  0xe1848ce185a5e186abe1848be185ade186bc; 0xe1848ce185a5e186abe1848ce185a1; 0xe1848ce185a5e186abe1848ce185a2e186bc; 0xe1848ce185a5e186abe1848ce185ae; 0xe1848ce185a5e186abe1848ee185a5e186af; 0xe1848ce185a5e186abe1848ee185a6; 0xe1848ce185a5e186abe18490e185a9e186bc; 0xe1848ce185a5e186abe18492e185a7;
  0xe1848ce185a5e186abe18492e185ae; 0xe1848ce185a5e186afe18483e185a2; 0xe1848ce185a5e186afe18486e185a1e186bc; 0xe1848ce185a5e186afe18487e185a1e186ab; 0xe1848ce185a5e186afe1848be185a3e186a8; 0xe1848ce185a5e186afe1848ee185a1; 0xe1848ce185a5e186b7e18480e185a5e186b7; 0xe1848ce185a5e186b7e18489e185ae;
  0xe1848ce185a5e186b7e18489e185b5e186b7; 0xe1848ce185a5e186b7e1848be185afe186ab; 0xe1848ce185a5e186b7e1848ce185a5e186b7; 0xe1848ce185a5e186b7e1848ee185a1; 0xe1848ce185a5e186b8e18480e185b3e186ab; 0xe1848ce185a5e186b8e18489e185b5; 0xe1848ce185a5e186b8e1848ee185a9e186a8; 0xe1848ce185a5e186bae18480e185a1e18485e185a1e186a8;
  0xe1848ce185a5e186bce18480e185a5e1848ce185a1e186bc; 0xe1848ce185a5e186bce18483e185a9; 0xe1848ce185a5e186bce18485e185b2e1848ce185a1e186bc; 0xe1848ce185a5e186bce18485e185b5; 0xe1848ce185a5e186bce18486e185a1e186af; 0xe1848ce185a5e186bce18486e185a7e186ab; 0xe1848ce185a5e186bce18486e185aee186ab; 0xe1848ce185a5e186bce18487e185a1e186abe18483e185a2;
  0xe1848ce185a5e186bce18487e185a9; 0xe1848ce185a5e186bce18487e185ae; 0xe1848ce185a5e186bce18487e185b5; 0xe1848ce185a5e186bce18489e185a1e186bc; 0xe1848ce185a5e186bce18489e185a5e186bc; 0xe1848ce185a5e186bce1848be185a9; 0xe1848ce185a5e186bce1848be185afe186ab; 0xe1848ce185a5e186bce1848ce185a1e186bc;
  0xe1848ce185a5e186bce1848ce185b5; 0xe1848ce185a5e186bce1848ee185b5; 0xe1848ce185a5e186bce18492e185aae186a8e18492e185b5; 0xe1848ce185a6e18480e185a9e186bc; 0xe1848ce185a6e18480e185aae1848ce185a5e186b7; 0xe1848ce185a6e18483e185a2e18485e185a9; 0xe1848ce185a6e18486e185a9e186a8; 0xe1848ce185a6e18487e185a1e186af;
  0xe1848ce185a6e18487e185a5e186b8; 0xe1848ce185a6e18489e185a1e186bae18482e185a1e186af; 0xe1848ce185a6e1848be185a1e186ab; 0xe1848ce185a6e1848be185b5e186af; 0xe1848ce185a6e1848ce185a1e186a8; 0xe1848ce185a6e1848ce185aee18483e185a9; 0xe1848ce185a6e1848ee185aee186af; 0xe1848ce185a6e18491e185aee186b7;
  0xe1848ce185a6e18492e185a1e186ab; 0xe1848ce185a9e18480e185a1e186a8; 0xe1848ce185a9e18480e185a5e186ab; 0xe1848ce185a9e18480e185b3e186b7; 0xe1848ce185a9e18480e185b5e186bc; 0xe1848ce185a9e18486e185a7e186bc; 0xe1848ce185a9e18486e185b5e18485e185ad; 0xe1848ce185a9e18489e185a1e186bc;
  0xe1848ce185a9e18489e185a5e186ab; 0xe1848ce185a9e1848be185ade186bce18492e185b5; 0xe1848ce185a9e1848ce185a5e186af; 0xe1848ce185a9e1848ce185a5e186bc; 0xe1848ce185a9e1848ce185b5e186a8; 0xe1848ce185a9e186abe18483e185a2e186bae18486e185a1e186af; 0xe1848ce185a9e186abe1848ce185a2; 0xe1848ce185a9e186afe1848be185a5e186b8;
  0xe1848ce185a9e186afe1848be185b3e186b7; 0xe1848ce185a9e186bce18480e185ad; 0xe1848ce185a9e186bce18485e185a9; 0xe1848ce185a9e186bce18485e185b2; 0xe1848ce185a9e186bce18489e185a9e18485e185b5; 0xe1848ce185a9e186bce1848be185a5e186b8e1848be185afe186ab; 0xe1848ce185a9e186bce1848ce185a9e186bc; 0xe1848ce185a9e186bce18492e185a1e186b8;
  0xe1848ce185aae18489e185a5e186a8; 0xe1848ce185ace1848be185b5e186ab; 0xe1848ce185aee18480e185aae186abe1848ce185a5e186a8; 0xe1848ce185aee18485e185b3e186b7; 0xe1848ce185aee18486e185a1e186af; 0xe1848ce185aee18486e185a5e18482e185b5; 0xe1848ce185aee18486e185a5e186a8; 0xe1848ce185aee18486e185aee186ab;
  0xe1848ce185aee18486e185b5e186ab; 0xe1848ce185aee18487e185a1e186bc; 0xe1848ce185aee18487e185a7e186ab; 0xe1848ce185aee18489e185b5e186a8; 0xe1848ce185aee1848be185b5e186ab; 0xe1848ce185aee1848be185b5e186af; 0xe1848ce185aee1848ce185a1e186bc; 0xe1848ce185aee1848ce185a5e186abe1848ce185a1;
  0xe1848ce185aee18490e185a2e186a8; 0xe1848ce185aee186abe18487e185b5; 0xe1848ce185aee186afe18480e185a5e18485e185b5; 0xe1848ce185aee186afe18480e185b5; 0xe1848ce185aee186afe18486e185aee18482e185b4; 0xe1848ce185aee186bce18480e185a1e186ab; 0xe1848ce185aee186bce18480e185a8e18487e185a1e186bce18489e185a9e186bc; 0xe1848ce185aee186bce18480e185aee186a8;
  0xe1848ce185aee186bce18482e185a7e186ab; 0xe1848ce185aee186bce18483e185a1e186ab; 0xe1848ce185aee186bce18483e185a9e186a8; 0xe1848ce185aee186bce18487e185a1e186ab; 0xe1848ce185aee186bce18487e185ae; 0xe1848ce185aee186bce18489e185a6; 0xe1848ce185aee186bce18489e185a9e18480e185b5e1848be185a5e186b8; 0xe1848ce185aee186bce18489e185aee186ab;
  0xe1848ce185aee186bce1848be185a1e186bc; 0xe1848ce185aee186bce1848be185ad; 0xe1848ce185aee186bce18492e185a1e186a8e18480e185ad; 0xe1848ce185b3e186a8e18489e185a5e186a8; 0xe1848ce185b3e186a8e18489e185b5; 0xe1848ce185b3e186afe18480e185a5e1848be185aee186b7; 0xe1848ce185b3e186bce18480e185a1; 0xe1848ce185b3e186bce18480e185a5;
  0xe1848ce185b3e186bce18480e185afe186ab; 0xe1848ce185b3e186bce18489e185a1e186bc; 0xe1848ce185b3e186bce18489e185a6; 0xe1848ce185b5e18480e185a1e186a8; 0xe1848ce185b5e18480e185a1e186b8; 0xe1848ce185b5e18480e185a7e186bc; 0xe1848ce185b5e18480e185b3e186a8e18492e185b5; 0xe1848ce185b5e18480e185b3e186b7;
  0xe1848ce185b5e18480e185b3e186b8; 0xe1848ce185b5e18482e185b3e186bc; 0xe1848ce185b5e18485e185b3e186b7e18480e185b5e186af; 0xe1848ce185b5e18485e185b5e18489e185a1e186ab; 0xe1848ce185b5e18487e185a1e186bc; 0xe1848ce185b5e18487e185aee186bc; 0xe1848ce185b5e18489e185b5e186a8; 0xe1848ce185b5e1848be185a7e186a8;
  0xe1848ce185b5e1848be185aee18480e185a2; 0xe1848ce185b5e1848be185afe186ab; 0xe1848ce185b5e1848ce185a5e186a8; 0xe1848ce185b5e1848ce185a5e186b7; 0xe1848ce185b5e1848ce185b5e186ab; 0xe1848ce185b5e1848ee185aee186af; 0xe1848ce185b5e186a8e18489e185a5e186ab; 0xe1848ce185b5e186a8e1848be185a5e186b8;
  0xe1848ce185b5e186a8e1848be185afe186ab; 0xe1848ce185b5e186a8e1848ce185a1e186bc; 0xe1848ce185b5e186abe18480e185b3e186b8; 0xe1848ce185b5e186abe18483e185a9e186bc; 0xe1848ce185b5e186abe18485e185a9; 0xe1848ce185b5e186abe18485e185ad; 0xe1848ce185b5e186abe18485e185b5; 0xe1848ce185b5e186abe1848de185a1;
  0xe1848ce185b5e186abe1848ee185a1e186af; 0xe1848ce185b5e186abe1848ee185aee186af; 0xe1848ce185b5e186abe18490e185a9e186bc; 0xe1848ce185b5e186abe18492e185a2e186bc; 0xe1848ce185b5e186afe18486e185aee186ab; 0xe1848ce185b5e186afe18487e185a7e186bc; 0xe1848ce185b5e186afe18489e185a5; 0xe1848ce185b5e186b7e1848ce185a1e186a8;
  0xe1848ce185b5e186b8e18483e185a1e186ab; 0xe1848ce185b5e186b8e1848be185a1e186ab; 0xe1848ce185b5e186b8e1848ce185aee186bc; 0xe1848de185a1e1848ce185b3e186bc; 0xe1848de185b5e18481e185a5e18480e185b5; 0xe1848ee185a1e18482e185a1e186b7; 0xe1848ee185a1e18485e185a1e18485e185b5; 0xe1848ee185a1e18485e185a3e186bc;
  0xe1848ee185a1e18485e185b5e186b7; 0xe1848ee185a1e18487e185a7e186af; 0xe1848ee185a1e18489e185a5e186ab; 0xe1848ee185a1e1848ee185b3e186b7; 0xe1848ee185a1e186a8e18480e185a1e186a8; 0xe1848ee185a1e186abe18486e185aee186af; 0xe1848ee185a1e186abe18489e185a5e186bc; 0xe1848ee185a1e186b7e18480e185a1;
  0xe1848ee185a1e186b7e18480e185b5e18485e185b3e186b7; 0xe1848ee185a1e186b7e18489e185a2; 0xe1848ee185a1e186b7e18489e185a5e186a8; 0xe1848ee185a1e186b7e1848be185a7; 0xe1848ee185a1e186b7e1848be185ac; 0xe1848ee185a1e186b7e1848ce185a9; 0xe1848ee185a1e186bae1848ce185a1e186ab; 0xe1848ee185a1e186bce18480e185a1;
  0xe1848ee185a1e186bce18480e185a9; 0xe1848ee185a1e186bce18480e185ae; 0xe1848ee185a1e186bce18486e185aee186ab; 0xe1848ee185a1e186bce18487e185a1e186a9; 0xe1848ee185a1e186bce1848ce185a1e186a8; 0xe1848ee185a1e186bce1848ce185a9; 0xe1848ee185a2e18482e185a5e186af; 0xe1848ee185a2e1848ce185a5e186b7;
  0xe1848ee185a2e186a8e18480e185a1e18487e185a1e186bc; 0xe1848ee185a2e186a8e18487e185a1e186bc; 0xe1848ee185a2e186a8e18489e185a1e186bc; 0xe1848ee185a2e186a8e1848be185b5e186b7; 0xe1848ee185a2e186b7e18491e185b5e1848be185a5e186ab; 0xe1848ee185a5e18487e185a5e186af; 0xe1848ee185a5e1848be185b3e186b7; 0xe1848ee185a5e186abe18480e185aee186a8;
  0xe1848ee185a5e186abe18483e185aee186bc; 0xe1848ee185a5e186abe1848ce185a1e186bc; 0xe1848ee185a5e186abe1848ce185a2; 0xe1848ee185a5e186abe1848ee185a5e186abe18492e185b5; 0xe1848ee185a5e186afe18483e185a9; 0xe1848ee185a5e186afe1848ce185a5e18492e185b5; 0xe1848ee185a5e186afe18492e185a1e186a8; 0xe1848ee185a5e186bae18482e185a1e186af;
  0xe1848ee185a5e186bae1848de185a2; 0xe1848ee185a5e186bce18482e185a7e186ab; 0xe1848ee185a5e186bce18487e185a1e1848ce185b5; 0xe1848ee185a5e186bce18489e185a9; 0xe1848ee185a5e186bce1848ee185aee186ab; 0xe1848ee185a6e18480e185a8; 0xe1848ee185a6e18485e185a7e186a8; 0xe1848ee185a6e1848be185a9e186ab;
  0xe1848ee185a6e1848be185b2e186a8; 0xe1848ee185a6e1848ce185aee186bc; 0xe1848ee185a6e18492e185a5e186b7; 0xe1848ee185a9e18483e185b3e186bce18492e185a1e186a8e18489e185a2e186bc; 0xe1848ee185a9e18487e185a1e186ab; 0xe1848ee185a9e18487e185a1e186b8; 0xe1848ee185a9e18489e185a1e186bce18492e185aa; 0xe1848ee185a9e18489e185aee186ab;
  0xe1848ee185a9e1848be185a7e18485e185b3e186b7; 0xe1848ee185a9e1848be185afe186ab; 0xe1848ee185a9e1848ce185a5e18482e185a7e186a8; 0xe1848ee185a9e1848ce185a5e186b7; 0xe1848ee185a9e1848ee185a5e186bc; 0xe1848ee185a9e1848fe185a9e186afe18485e185b5e186ba; 0xe1848ee185a9e186bae18487e185aee186af; 0xe1848ee185a9e186bce18480e185a1e186a8;
  0xe1848ee185a9e186bce18485e185b5; 0xe1848ee185a9e186bce1848ce185a1e186bc; 0xe1848ee185aae186afe1848be185a7e186bc; 0xe1848ee185ace18480e185b3e186ab; 0xe1848ee185ace18489e185a1e186bc; 0xe1848ee185ace18489e185a5e186ab; 0xe1848ee185ace18489e185b5e186ab; 0xe1848ee185ace1848be185a1e186a8;
  0xe1848ee185ace1848ce185a9e186bc; 0xe1848ee185aee18489e185a5e186a8; 0xe1848ee185aee1848be185a5e186a8; 0xe1848ee185aee1848ce185b5e186ab; 0xe1848ee185aee1848ee185a5e186ab; 0xe1848ee185aee1848ee185b3e186a8; 0xe1848ee185aee186a8e18480e185ae; 0xe1848ee185aee186a8e18489e185a9;
  0xe1848ee185aee186a8e1848ce185a6; 0xe1848ee185aee186a8e18492e185a1; 0xe1848ee185aee186afe18480e185b3e186ab; 0xe1848ee185aee186afe18487e185a1e186af; 0xe1848ee185aee186afe18489e185a1e186ab; 0xe1848ee185aee186afe18489e185b5e186ab; 0xe1848ee185aee186afe1848be185a7e186ab; 0xe1848ee185aee186afe1848be185b5e186b8;
  0xe1848ee185aee186afe1848ce185a1e186bc; 0xe1848ee185aee186afe18491e185a1e186ab; 0xe1848ee185aee186bce18480e185a7e186a8; 0xe1848ee185aee186bce18480e185a9; 0xe1848ee185aee186bce18483e185a9e186af; 0xe1848ee185aee186bce18487e185aee186abe18492e185b5; 0xe1848ee185aee186bce1848ee185a5e186bce18483e185a9; 0xe1848ee185b1e1848be185a5e186b8;
  0xe1848ee185b1e1848ce185b5e186a8; 0xe1848ee185b1e18492e185a3e186bc; 0xe1848ee185b5e1848be185a3e186a8; 0xe1848ee185b5e186abe18480e185ae; 0xe1848ee185b5e186abe1848ee185a5e186a8; 0xe1848ee185b5e186afe18489e185b5e186b8; 0xe1848ee185b5e186afe1848be185afe186af; 0xe1848ee185b5e186afe18491e185a1e186ab;
  0xe1848ee185b5e186b7e18483e185a2; 0xe1848ee185b5e186b7e18486e185aee186a8; 0xe1848ee185b5e186b7e18489e185b5e186af; 0xe1848ee185b5e186bae18489e185a9e186af; 0xe1848ee185b5e186bce1848ee185a1e186ab; 0xe1848fe185a1e18486e185a6e18485e185a1; 0xe1848fe185a1e1848be185aee186abe18490e185a5; 0xe1848fe185a1e186afe18480e185aee186a8e18489e185ae;
  0xe1848fe185a2e18485e185b5e186a8e18490e185a5; 0xe1848fe185a2e186b7e18491e185a5e18489e185b3; 0xe1848fe185a2e186b7e18491e185a6e1848be185b5e186ab; 0xe1848fe185a5e18490e185b3e186ab; 0xe1848fe185a5e186abe18483e185b5e18489e185a7e186ab; 0xe1848fe185a5e186afe18485e185a5; 0xe1848fe185a5e186b7e18491e185b2e18490e185a5; 0xe1848fe185a9e18481e185b5e18485e185b5;
  0xe1848fe185a9e18486e185b5e18483e185b5; 0xe1848fe185a9e186abe18489e185a5e18490e185b3; 0xe1848fe185a9e186afe18485e185a1; 0xe1848fe185a9e186b7e18491e185b3e186afe18485e185a6e186a8e18489e185b3; 0xe1848fe185a9e186bce18482e185a1e18486e185aee186af; 0xe1848fe185abe18480e185a1e186b7; 0xe1848fe185aee18483e185a6e18490e185a1; 0xe1848fe185b3e18485e185b5e186b7;
  0xe1848fe185b3e186abe18480e185b5e186af; 0xe1848fe185b3e186abe18484e185a1e186af; 0xe1848fe185b3e186abe18489e185a9e18485e185b5; 0xe1848fe185b3e186abe1848be185a1e18483e185b3e186af; 0xe1848fe185b3e186abe1848be185a5e18486e185a5e18482e185b5; 0xe1848fe185b3e186abe1848be185b5e186af; 0xe1848fe185b3e186abe1848ce185a5e186af; 0xe1848fe185b3e186afe18485e185a2e18489e185b5e186a8;
  0xe1848fe185b3e186afe18485e185a5e186b8; 0xe1848fe185b5e186afe18485e185a9; 0xe18490e185a1e1848be185b5e186b8; 0xe18490e185a1e1848ce185a1e18480e185b5; 0xe18490e185a1e186a8e18480e185ae; 0xe18490e185a1e186a8e1848ce185a1; 0xe18490e185a1e186abe18489e185a2e186bc; 0xe18490e185a2e18480e185afe186abe18483e185a9;
  0xe18490e185a2e1848be185a3e186bc; 0xe18490e185a2e18491e185aee186bc; 0xe18490e185a2e186a8e18489e185b5; 0xe18490e185a2e186afe18485e185a5e186abe18490e185b3; 0xe18490e185a5e18482e185a5e186af; 0xe18490e185a5e18486e185b5e18482e185a5e186af; 0xe18490e185a6e18482e185b5e18489e185b3; 0xe18490e185a6e18489e185b3e18490e185b3;
  0xe18490e185a6e1848be185b5e18487e185b3e186af; 0xe18490e185a6e186afe18485e185a6e18487e185b5e1848ce185a5e186ab; 0xe18490e185a9e18485e185a9e186ab; 0xe18490e185a9e18486e185a1e18490e185a9; 0xe18490e185a9e1848be185ade1848be185b5e186af; 0xe18490e185a9e186bce18480e185a8; 0xe18490e185a9e186bce18480e185aa; 0xe18490e185a9e186bce18485e185a9;
  0xe18490e185a9e186bce18489e185b5e186ab; 0xe18490e185a9e186bce1848be185a7e186a8; 0xe18490e185a9e186bce1848be185b5e186af; 0xe18490e185a9e186bce1848ce185a1e186bc; 0xe18490e185a9e186bce1848ce185a6; 0xe18490e185a9e186bce1848ce185b3e186bc; 0xe18490e185a9e186bce18492e185a1e186b8; 0xe18490e185a9e186bce18492e185aa;
  0xe18490e185ace18480e185b3e186ab; 0xe18490e185ace1848be185afe186ab; 0xe18490e185ace1848ce185b5e186a8e18480e185b3e186b7; 0xe18490e185b1e18480e185b5e186b7; 0xe18490e185b3e18485e185a5e186a8; 0xe18490e185b3e186a8e18480e185b3e186b8; 0xe18490e185b3e186a8e18487e185a7e186af; 0xe18490e185b3e186a8e18489e185a5e186bc;
  0xe18490e185b3e186a8e18489e185ae; 0xe18490e185b3e186a8e1848ce185b5e186bc; 0xe18490e185b3e186a8e18492e185b5; 0xe18490e185b3e186abe18490e185b3e186abe18492e185b5; 0xe18490e185b5e18489e185a7e1848ee185b3; 0xe18491e185a1e18485e185a1e186abe18489e185a2e186a8; 0xe18491e185a1e1848be185b5e186af; 0xe18491e185a1e1848ee185aee186afe18489e185a9;
  0xe18491e185a1e186abe18480e185a7e186af; 0xe18491e185a1e186abe18483e185a1e186ab; 0xe18491e185a1e186abe18486e185a2; 0xe18491e185a1e186abe18489e185a1; 0xe18491e185a1e186afe18489e185b5e186b8; 0xe18491e185a1e186afe1848be185afe186af; 0xe18491e185a1e186b8e18489e185a9e186bc; 0xe18491e185a2e18489e185a7e186ab;
  0xe18491e185a2e186a8e18489e185b3; 0xe18491e185a2e186a8e18489e185b5e18486e185b5e186afe18485e185b5; 0xe18491e185a2e186abe18490e185b5; 0xe18491e185a5e18489e185a6e186abe18490e185b3; 0xe18491e185a6e1848be185b5e186abe18490e185b3; 0xe18491e185a7e186abe18480e185a7e186ab; 0xe18491e185a7e186abe1848be185b4; 0xe18491e185a7e186abe1848ce185b5;
  0xe18491e185a7e186abe18492e185b5; 0xe18491e185a7e186bce18480e185a1; 0xe18491e185a7e186bce18480e185b2e186ab; 0xe18491e185a7e186bce18489e185a2e186bc; 0xe18491e185a7e186bce18489e185a9; 0xe18491e185a7e186bce1848be185a3e186bc; 0xe18491e185a7e186bce1848be185b5e186af; 0xe18491e185a7e186bce18492e185aa;
  0xe18491e185a9e18489e185b3e18490e185a5; 0xe18491e185a9e1848be185b5e186abe18490e185b3; 0xe18491e185a9e1848ce185a1e186bc; 0xe18491e185a9e18492e185a1e186b7; 0xe18491e185ade18486e185a7e186ab; 0xe18491e185ade1848ce185a5e186bc; 0xe18491e185ade1848ce185aee186ab; 0xe18491e185ade18492e185a7e186ab;
  0xe18491e185aee186b7e18486e185a9e186a8; 0xe18491e185aee186b7e1848ce185b5e186af; 0xe18491e185aee186bce18480e185a7e186bc; 0xe18491e185aee186bce18489e185a9e186a8; 0xe18491e185aee186bce18489e185b3e186b8; 0xe18491e185b3e18485e185a1e186bce18489e185b3; 0xe18491e185b3e18485e185b5e186abe18490e185a5; 0xe18491e185b3e186afe18485e185a1e18489e185b3e18490e185b5e186a8;
  0xe18491e185b5e18480e185a9e186ab; 0xe18491e185b5e18486e185a1e186bc; 0xe18491e185b5e1848be185a1e18482e185a9; 0xe18491e185b5e186afe18485e185b3e186b7; 0xe18491e185b5e186afe18489e185ae; 0xe18491e185b5e186afe1848be185ad; 0xe18491e185b5e186afe1848ce185a1; 0xe18491e185b5e186afe18490e185a9e186bc;
  0xe18491e185b5e186bce18480e185a8; 0xe18492e185a1e18482e185b3e18482e185b5e186b7; 0xe18492e185a1e18482e185b3e186af; 0xe18492e185a1e18483e185b3e1848be185b0e1848be185a5; 0xe18492e185a1e18485e185aee186bae18487e185a1e186b7; 0xe18492e185a1e18487e185a1e186abe18480e185b5; 0xe18492e185a1e18489e185aee186a8e1848ce185b5e186b8; 0xe18492e185a1e18489e185aee186ab;
  0xe18492e185a1e1848be185a7e18490e185b3e186ab; 0xe18492e185a1e1848ce185b5e18486e185a1e186ab; 0xe18492e185a1e1848ee185a5e186ab; 0xe18492e185a1e18491e185aee186b7; 0xe18492e185a1e18491e185b5e186af; 0xe18492e185a1e186a8e18480e185aa; 0xe18492e185a1e186a8e18480e185ad; 0xe18492e185a1e186a8e18480e185b3e186b8;
  0xe18492e185a1e186a8e18480e185b5; 0xe18492e185a1e186a8e18482e185a7e186ab; 0xe18492e185a1e186a8e18485e185a7e186a8; 0xe18492e185a1e186a8e18487e185a5e186ab; 0xe18492e185a1e186a8e18487e185aee18486e185a9; 0xe18492e185a1e186a8e18487e185b5; 0xe18492e185a1e186a8e18489e185a2e186bc; 0xe18492e185a1e186a8e18489e185aee186af;
  0xe18492e185a1e186a8e18489e185b3e186b8; 0xe18492e185a1e186a8e1848be185ade186bce18491e185aee186b7; 0xe18492e185a1e186a8e1848be185afe186ab; 0xe18492e185a1e186a8e1848be185b1; 0xe18492e185a1e186a8e1848ce185a1; 0xe18492e185a1e186a8e1848ce185a5e186b7; 0xe18492e185a1e186abe18480e185a8; 0xe18492e185a1e186abe18480e185b3e186af;
  0xe18492e185a1e186abe18481e185a5e18487e185a5e186abe1848be185a6; 0xe18492e185a1e186abe18482e185a1e186bd; 0xe18492e185a1e186abe18482e185aee186ab; 0xe18492e185a1e186abe18483e185a9e186bce1848be185a1e186ab; 0xe18492e185a1e186abe18484e185a2; 0xe18492e185a1e186abe18485e185a1e18489e185a1e186ab; 0xe18492e185a1e186abe18486e185a1e18483e185b5; 0xe18492e185a1e186abe18486e185aee186ab;
  0xe18492e185a1e186abe18487e185a5e186ab; 0xe18492e185a1e186abe18487e185a9e186a8; 0xe18492e185a1e186abe18489e185b5e186a8; 0xe18492e185a1e186abe1848be185a7e18485e185b3e186b7; 0xe18492e185a1e186abe1848de185a9e186a8; 0xe18492e185a1e186afe18486e185a5e18482e185b5; 0xe18492e185a1e186afe1848be185a1e18487e185a5e1848ce185b5; 0xe18492e185a1e186afe1848be185b5e186ab;
  0xe18492e185a1e186b7e18481e185a6; 0xe18492e185a1e186b7e18487e185aee18485e185a9; 0xe18492e185a1e186b8e18480e185a7e186a8; 0xe18492e185a1e186b8e18485e185b5e1848ce185a5e186a8; 0xe18492e185a1e186bce18480e185a9e186bc; 0xe18492e185a1e186bce18480e185ae; 0xe18492e185a1e186bce18489e185a1e186bc; 0xe18492e185a1e186bce1848be185b4;
  0xe18492e185a2e18480e185a7e186af; 0xe18492e185a2e18480e185aee186ab; 0xe18492e185a2e18483e185a1e186b8; 0xe18492e185a2e18483e185a1e186bc; 0xe18492e185a2e18486e185aee186af; 0xe18492e185a2e18489e185a5e186a8; 0xe18492e185a2e18489e185a5e186af; 0xe18492e185a2e18489e185aee1848be185ade186a8e1848ce185a1e186bc;
  0xe18492e185a2e1848be185a1e186ab; 0xe18492e185a2e186a8e18489e185b5e186b7; 0xe18492e185a2e186abe18483e185b3e18487e185a2e186a8; 0xe18492e185a2e186b7e18487e185a5e18480e185a5; 0xe18492e185a2e186bae18487e185a7e18780; 0xe18492e185a2e186bae18489e185a1e186af; 0xe18492e185a2e186bce18483e185a9e186bc; 0xe18492e185a2e186bce18487e185a9e186a8;
  0xe18492e185a2e186bce18489e185a1; 0xe18492e185a2e186bce1848be185aee186ab; 0xe18492e185a2e186bce1848be185b1; 0xe18492e185a3e186bce18480e185b5; 0xe18492e185a3e186bce18489e185a1e186bc; 0xe18492e185a3e186bce18489e185ae; 0xe18492e185a5e18485e185a1e186a8; 0xe18492e185a5e1848be185ade186bc;
  0xe18492e185a6e186afe18480e185b5; 0xe18492e185a7e186abe18480e185aae186ab; 0xe18492e185a7e186abe18480e185b3e186b7; 0xe18492e185a7e186abe18483e185a2; 0xe18492e185a7e186abe18489e185a1e186bc; 0xe18492e185a7e186abe18489e185b5e186af; 0xe18492e185a7e186abe1848ce185a1e186bc; 0xe18492e185a7e186abe1848ce185a2;
  0xe18492e185a7e186abe1848ce185b5; 0xe18492e185a7e186afe1848be185a2e186a8; 0xe18492e185a7e186b8e18485e185a7e186a8; 0xe18492e185a7e186bce18487e185ae; 0xe18492e185a7e186bce18489e185a1; 0xe18492e185a7e186bce18489e185ae; 0xe18492e185a7e186bce18489e185b5e186a8; 0xe18492e185a7e186bce1848ce185a6;
  0xe18492e185a7e186bce18490e185a2; 0xe18492e185a7e186bce18491e185a7e186ab; 0xe18492e185a8e18490e185a2e186a8; 0xe18492e185a9e18480e185b5e18489e185b5e186b7; 0xe18492e185a9e18482e185a1e186b7; 0xe18492e185a9e18485e185a1e186bce1848be185b5; 0xe18492e185a9e18487e185a1e186a8; 0xe18492e185a9e18490e185a6e186af;
  0xe18492e185a9e18492e185b3e186b8; 0xe18492e185a9e186a8e18489e185b5; 0xe18492e185a9e186afe18485e185a9; 0xe18492e185a9e186b7e18491e185a6e1848be185b5e1848ce185b5; 0xe18492e185a9e186bce18487e185a9; 0xe18492e185a9e186bce18489e185ae; 0xe18492e185a9e186bce1848ee185a1; 0xe18492e185aae18486e185a7e186ab;
  0xe18492e185aae18487e185aee186ab; 0xe18492e185aae18489e185a1e186af; 0xe18492e185aae1848be185ade1848be185b5e186af; 0xe18492e185aae1848ce185a1e186bc; 0xe18492e185aae18492e185a1e186a8; 0xe18492e185aae186a8e18487e185a9; 0xe18492e185aae186a8e1848be185b5e186ab; 0xe18492e185aae186a8e1848ce185a1e186bc;
  0xe18492e185aae186a8e1848ce185a5e186bc; 0xe18492e185aae186abe18480e185a1e186b8; 0xe18492e185aae186abe18480e185a7e186bc; 0xe18492e185aae186abe1848be185a7e186bc; 0xe18492e185aae186abe1848be185b2e186af; 0xe18492e185aae186abe1848ce185a1; 0xe18492e185aae186afe18480e185b5; 0xe18492e185aae186afe18483e185a9e186bc;
  0xe18492e185aae186afe18487e185a1e186afe18492e185b5; 0xe18492e185aae186afe1848be185ade186bc; 0xe18492e185aae186afe1848de185a1e186a8; 0xe18492e185ace18480e185a7e186ab; 0xe18492e185ace18480e185aae186ab; 0xe18492e185ace18487e185a9e186a8; 0xe18492e185ace18489e185a2e186a8; 0xe18492e185ace1848be185afe186ab;
  0xe18492e185ace1848ce185a1e186bc; 0xe18492e185ace1848ce185a5e186ab; 0xe18492e185ace186bae18489e185ae; 0xe18492e185ace186bce18483e185a1e186abe18487e185a9e18483e185a9; 0xe18492e185ade1848be185b2e186afe1848ce185a5e186a8; 0xe18492e185aee18487e185a1e186ab; 0xe18492e185aee1848ee185aee186bae18480e185a1e18485e185ae; 0xe18492e185aee186abe18485e185a7e186ab;
  0xe18492e185afe186afe1848ae185b5e186ab; 0xe18492e185b2e18489e185b5e186a8; 0xe18492e185b2e1848be185b5e186af; 0xe18492e185b2e186bce18482e185a2; 0xe18492e185b3e18485e185b3e186b7; 0xe18492e185b3e186a8e18487e185a2e186a8; 0xe18492e185b3e186a8e1848be185b5e186ab; 0xe18492e185b3e186abe1848ce185a5e186a8;
  0xe18492e185b3e186abe18492e185b5; 0xe18492e185b3e186bce18486e185b5; 0xe18492e185b3e186bce18487e185aee186ab; 0xe18492e185b4e18480e185a9e186a8; 0xe18492e185b4e18486e185a1e186bc; 0xe18492e185b4e18489e185a2e186bc; 0xe18492e185b4e186abe18489e185a2e186a8; 0xe18492e185b5e186b7e18481e185a5e186ba].

(** bip39_dictionary.hpp:17668-19717 *)
Definition dict_portuguese : list Z := [
  0x61626163617465; 0x61626169786f; 0x6162616c6172; 0x616261746572; 0x616264757a6972; 0x6162656c6861; 0x61626572746f; 0x616269736d6f;
  0x61626f746f6172; 0x616272616e676572; 0x6162726576696172; 0x61627269676172; 0x6162727570746f; 0x616273696e746f; 0x6162736f6c75746f; 0x6162737572646f;
  0x616275747265; 0x6163616261646f; 0x6163616c6d6172; 0x6163616d706172; 0x6163616e686172; 0x616361736f; 0x61636569746172; 0x6163656c65726172;
  0x6163656e6172; 0x61636572766f; 0x61636573736172; 0x616365746f6e61; 0x61636861746172; 0x61636964657a; 0x6163696d61; 0x6163696f6e61646f;
  0x61636972726172; 0x61636c616d6172; 0x61636c697665; 0x61636f6c68696461; 0x61636f6d6f646172; 0x61636f706c6172; 0x61636f72646172; 0x6163756d756c6172;
  0x6163757361646f72; 0x61646170746172; 0x6164656761; 0x6164656e74726f; 0x61646570746f; 0x61646571756172; 0x61646572656e7465; 0x6164657369766f;
  0x6164657573; 0x616469616e7465; 0x6164697469766f; 0x61646a657469766f; 0x61646a756e746f; 0x61646d69726172; 0x61646f726172; 0x6164717569726972;
  0x616475626f; 0x6164766572736f; 0x6164766f6761646f; 0x6165726f6e617665; 0x61666173746172; 0x616665726972; 0x6166657469766f; 0x6166696e61646f72;
  0x61666976656c6172; 0x61666c69746f; 0x61666c75656e7465; 0x6166726f6e746172; 0x61676163686172; 0x61676172726172; 0x61676173616c686f; 0x6167656e63696172;
  0x6167696c697a6172; 0x6167696f7461; 0x6167697461646f; 0x61676f7261; 0x61677261646172; 0x61677265737465; 0x61677275706172; 0x6167756172646172;
  0x6167756c6861; 0x616a6f656c686172; 0x616a75646172; 0x616a7573746172; 0x616c616d656461; 0x616c61726d65; 0x616c617374726172; 0x616c6176616e6361;
  0x616c626572677565; 0x616c62696e6f; 0x616c6361747261; 0x616c64656961; 0x616c656372696d; 0x616c6567726961; 0x616c6572746172; 0x616c66616365;
  0x616c66696e657465; 0x616c67756d; 0x616c6865696f; 0x616c696172; 0x616c6963617465; 0x616c69656e6172; 0x616c696e686172; 0x616c6976696172;
  0x616c6d6f66616461; 0x616c6f636172; 0x616c7069737465; 0x616c7465726172; 0x616c746974756465; 0x616c7563696e6172; 0x616c75676172; 0x616c756e6f;
  0x616c757369766f; 0x616c766f; 0x616d6163696172; 0x616d61646f72; 0x616d6172656c6f; 0x616d6173736172; 0x616d626173; 0x616d6269656e7465;
  0x616d65697861; 0x616d656e697a6172; 0x616d69646f; 0x616d6973746f736f; 0x616d697a616465; 0x616d6f6c61646f72; 0x616d6f6e746f6172; 0x616d6f726f736f;
  0x616d6f73747261; 0x616d7061726172; 0x616d706c696172; 0x616d706f6c61; 0x616e616772616d61; 0x616e616c69736172; 0x616e617271756961; 0x616e61746f6d6961;
  0x616e6461696d65; 0x616e656c; 0x616e65786f; 0x616e67756c6172; 0x616e696d6172; 0x616e6a6f; 0x616e6f6d616c6961; 0x616e6f7461646f;
  0x616e73696f736f; 0x616e746572696f72; 0x616e756964616465; 0x616e756e63696172; 0x616e7a6f6c; 0x6170616761646f72; 0x6170616c706172; 0x6170616e6861646f;
  0x617065676f; 0x6170656c69646f; 0x6170657274616461; 0x617065736172; 0x61706574697465; 0x617069746f; 0x61706c6175736f; 0x61706c6963616461;
  0x61706f696f; 0x61706f6e746172; 0x61706f737461; 0x617072656e64697a; 0x6170726f766172; 0x61717565636572; 0x6172616d65; 0x6172616e6861;
  0x6172617261; 0x617263616461; 0x617264656e7465; 0x6172656961; 0x6172656a6172; 0x6172656e69746f; 0x617265737461; 0x617267696c6f736f;
  0x6172676f6c61; 0x61726d61; 0x6172717569766f; 0x6172726169616c; 0x6172726562617465; 0x6172726973636172; 0x6172726f6261; 0x617272756d6172;
  0x617273656e616c; 0x617274657269616c; 0x61727469676f; 0x6172766f7265646f; 0x617366616c746172; 0x6173696c61646f; 0x61737069726172; 0x61737361646f72;
  0x617373696e6172; 0x6173736f616c686f; 0x617373756e746f; 0x61737472616c; 0x6174616361646f; 0x61746164757261; 0x6174616c686f; 0x6174617265666172;
  0x6174656172; 0x6174656e646572; 0x61746572726f; 0x61746575; 0x6174696e676972; 0x6174697261646f72; 0x617469766f; 0x61746f6c6569726f;
  0x61747261636172; 0x617472657669646f; 0x617472697a; 0x617475616c; 0x6174756d; 0x61756469746f72; 0x61756d656e746172; 0x61757261;
  0x6175726f7261; 0x61757469736d6f; 0x6175746f726961; 0x617574756172; 0x6176616c696172; 0x6176616e7465; 0x617661726961; 0x6176656e74616c;
  0x61766573736f; 0x61766961646f72; 0x617669736172; 0x6176756c736f; 0x6178696c61; 0x617a61726172; 0x617a65646f; 0x617a65697465;
  0x617a756c656a6f; 0x6261626172; 0x6261626f7361; 0x626163616c686175; 0x626163686172656c; 0x6261636961; 0x6261676167656d; 0x626169616e6f;
  0x6261696c6172; 0x6261696f6e657461; 0x62616972726f; 0x6261697869737461; 0x62616a756c6172; 0x62616c656961; 0x62616c697a61; 0x62616c7361;
  0x62616e616c; 0x62616e6465697261; 0x62616e686f; 0x62616e6972; 0x62616e7175657465; 0x62617261746f; 0x6261726261646f; 0x6261726f6e657361;
  0x62617272616361; 0x626172756c686f; 0x6261736561646f; 0x62617374616e7465; 0x626174617461; 0x62617465646f72; 0x626174696461; 0x6261746f6d;
  0x62617475636172; 0x6261756e696c6861; 0x6265626572; 0x6265696a6f; 0x62656972616461; 0x6265697365626f6c; 0x62656c64616465; 0x62656c657a61;
  0x62656c6761; 0x62656c6973636172; 0x62656e6469746f; 0x62656e67616c61; 0x62656e7a6572; 0x626572696d626175; 0x6265726c696e6461; 0x626572726f;
  0x6265736f75726f; 0x626578696761; 0x62657a6572726f; 0x6269636f; 0x62696375646f; 0x6269656e616c; 0x6269666f63616c; 0x6269667572636172;
  0x6269676f726e61; 0x62696c68657465; 0x62696d6573747265; 0x62696d6f746f72; 0x62696f6c6f676961; 0x62696f6d626f; 0x62696f7366657261; 0x6269706f6c6172;
  0x62697272656e746f; 0x626973636f69746f; 0x6269736e65746f; 0x626973706f; 0x626973736578746f; 0x6269746f6c61; 0x62697a6172726f; 0x626c696e6461646f;
  0x626c6f636f; 0x626c6f7175656172; 0x626f61746f; 0x626f626167656d; 0x626f6361646f; 0x626f63656a6f; 0x626f636865636861; 0x626f69636f746172;
  0x626f6c616461; 0x626f6c6574696d; 0x626f6c6861; 0x626f6c6f; 0x626f6d626569726f; 0x626f6e6465; 0x626f6e65636f; 0x626f6e697461;
  0x626f7262756c6861; 0x626f726461; 0x626f7265616c; 0x626f727261636861; 0x626f76696e6f; 0x626f786561646f72; 0x6272616e636f; 0x6272617361;
  0x62726176657a61; 0x62726575; 0x6272696761; 0x6272696c686f; 0x6272696e636172; 0x62726f61; 0x62726f6368757261; 0x62726f6e7a656172;
  0x62726f746f; 0x627275786f; 0x6275636861; 0x62756469736d6f; 0x6275666172; 0x62756c65; 0x62757261636f; 0x6275736361;
  0x627573746f; 0x62757a696e61; 0x636162616e61; 0x636162656c6f; 0x636162696465; 0x6361626f; 0x6361627269746f; 0x6361636175;
  0x6361636574616461; 0x636163686f72726f; 0x63616369717565; 0x636164617374726f; 0x6361646561646f; 0x636166657a616c; 0x63616961717565; 0x63616970697261;
  0x636169786f7465; 0x63616a61646f; 0x63616a75; 0x63616c616672696f; 0x63616c63756c6172; 0x63616c6465697261; 0x63616c6962726172; 0x63616c6d616e7465;
  0x63616c6f7461; 0x63616d616461; 0x63616d6269737461; 0x63616d697361; 0x63616d6f6d696c61; 0x63616d70616e6861; 0x63616d75666c6172; 0x63616e617669616c;
  0x63616e63656c6172; 0x63616e657461; 0x63616e67757275; 0x63616e686f746f; 0x63616e6976657465; 0x63616e6f61; 0x63616e7361646f; 0x63616e746172;
  0x63616e75646f; 0x6361706163686f; 0x636170656c61; 0x636170696e6172; 0x6361706f746172; 0x636170726963686f; 0x6361707461646f72; 0x636170757a;
  0x63617261636f6c; 0x636172626f6e6f; 0x6361726465616c; 0x636172656361; 0x636172696d626172; 0x6361726e6569726f; 0x63617270657465; 0x6361727265697261;
  0x63617274617a; 0x63617276616c686f; 0x63617361636f; 0x6361736361; 0x63617365627265; 0x63617374656c6f; 0x636173756c6f; 0x6361746172617461;
  0x63617469766172; 0x6361756c65; 0x6361757361646f72; 0x63617574656c6172; 0x636176616c6f; 0x63617665726e61; 0x6365626f6c61; 0x636564696c6861;
  0x6365676f6e6861; 0x63656c6562726172; 0x63656c756c6172; 0x63656e6f757261; 0x63656e736f; 0x63656e7465696f; 0x636572636172; 0x6365727261646f;
  0x636572746569726f; 0x63657276656a61; 0x636574696d; 0x636576616461; 0x636861636f7461; 0x6368616c65697261; 0x6368616d61646f; 0x63686170616461;
  0x636861726d65; 0x63686174696365; 0x6368617665; 0x6368656665; 0x63686567616461; 0x63686569726f; 0x636865717565; 0x636869636f7465;
  0x636869667265; 0x6368696e656c6f; 0x63686f63616c686f; 0x63686f766572; 0x6368756d626f; 0x636875746172; 0x6368757661; 0x636963617472697a;
  0x6369636c6f6e65; 0x636964616465; 0x6369647265697261; 0x6369656e7465; 0x636967616e61; 0x63696d656e746f; 0x63696e746f; 0x63696e7a61;
  0x636972616e6461; 0x636972637569746f; 0x6369727572676961; 0x6369746172; 0x636c6172657a61; 0x636c65726f; 0x636c69636172; 0x636c6f6e65;
  0x636c756265; 0x636f61646f; 0x636f61676972; 0x636f62616961; 0x636f626572746f72; 0x636f62726172; 0x636f63616461; 0x636f656c686f;
  0x636f656e74726f; 0x636f65736f; 0x636f67756d656c6f; 0x636f69626972; 0x636f696661; 0x636f696f7465; 0x636f6c6172; 0x636f6c65697261;
  0x636f6c686572; 0x636f6c69646972; 0x636f6c6d656961; 0x636f6c6f6e6f; 0x636f6c756e61; 0x636f6d616e646f; 0x636f6d62696e6172; 0x636f6d656e746172;
  0x636f6d6974697661; 0x636f6d6f766572; 0x636f6d706c65786f; 0x636f6d756d; 0x636f6e636861; 0x636f6e646f72; 0x636f6e6563746172; 0x636f6e6675736f;
  0x636f6e67656c6172; 0x636f6e6865636572; 0x636f6e6a75676172; 0x636f6e73756d6972; 0x636f6e747261746f; 0x636f6e76697465; 0x636f6f7065726172; 0x636f706569726f;
  0x636f706961646f72; 0x636f706f; 0x636f71756574656c; 0x636f726167656d; 0x636f726469616c; 0x636f726e657461; 0x636f726f6e6861; 0x636f72706f72616c;
  0x636f727265696f; 0x636f7274656a6f; 0x636f72756a61; 0x636f72766f; 0x636f7373656e6f; 0x636f7374656c61; 0x636f746f6e657465; 0x636f75726f;
  0x636f757665; 0x636f76696c; 0x636f7a696e6861; 0x63726174657261; 0x637261766f; 0x637265636865; 0x637265646f72; 0x6372656d65;
  0x63726572; 0x63726573706f; 0x637269616461; 0x6372696d696e616c; 0x6372696f756c6f; 0x6372697365; 0x6372697469636172; 0x63726f737461;
  0x63727561; 0x6372757a6569726f; 0x637562616e6f; 0x6375656361; 0x6375696461646f; 0x63756a6f; 0x63756c61747261; 0x63756c6d696e6172;
  0x63756c706172; 0x63756c74757261; 0x63756d70726972; 0x63756e6861646f; 0x63757069646f; 0x637572617469766f; 0x63757272616c; 0x637572736172;
  0x637572746f; 0x637573706972; 0x63757374656172; 0x637574656c6f; 0x64616d6173636f; 0x6461746172; 0x64656261746572; 0x64656269746172;
  0x6465626f636865; 0x646562756c686172; 0x646563616c717565; 0x646563696d616c; 0x6465636c697665; 0x6465636f7465; 0x6465637265746172; 0x646564616c;
  0x646564696361646f; 0x646564757a6972; 0x646566657361; 0x646566756d6172; 0x646567656c6f; 0x646567726175; 0x6465677573746172; 0x6465697461646f;
  0x646569786172; 0x64656c61746f72; 0x64656c656761646f; 0x64656c696e656172; 0x64656c6f6e6761; 0x64656d616e6461; 0x64656d69746972; 0x64656d6f6c69646f;
  0x64656e7469737461; 0x646570656e61646f; 0x646570696c6172; 0x6465706f6973; 0x6465707265737361; 0x64657075726172; 0x646572697661; 0x64657272616d6172;
  0x6465736166696f; 0x646573626f746172; 0x64657363616e736f; 0x646573656e686f; 0x646573666961646f; 0x6465736761737465; 0x646573696775616c; 0x6465736c697a65;
  0x6465736d616d6172; 0x6465736f7661; 0x64657370657361; 0x6465737461717565; 0x64657376696172; 0x646574616c686172; 0x646574656e746f72; 0x6465746f6e6172;
  0x6465747269746f; 0x6465757361; 0x6465766572; 0x64657669646f; 0x6465766f7461646f; 0x64657a656e61; 0x6469616772616d61; 0x6469616c65746f;
  0x646964617461; 0x64696675736f; 0x64696769746172; 0x64696c617461646f; 0x64696c75656e7465; 0x64696d696e756972; 0x64696e6173746961; 0x64696e686569726f;
  0x64696f63657365; 0x64697265746f; 0x6469736372657461; 0x6469736661726365; 0x6469737061726f; 0x6469737175657465; 0x6469737369706172; 0x64697374616e7465;
  0x64697461646f72; 0x646975726e6f; 0x6469766572736f; 0x64697669736f72; 0x646976756c676172; 0x64697a6572; 0x646f627261646f72; 0x646f6c6f7269646f;
  0x646f6d61646f72; 0x646f6d696e61646f; 0x646f6e617469766f; 0x646f6e7a656c61; 0x646f726d656e7465; 0x646f7273616c; 0x646f736167656d; 0x646f757261646f;
  0x646f75746f72; 0x6472656e6167656d; 0x647269626c65; 0x64726f6761726961; 0x6475656c6172; 0x6475656e6465; 0x647565746f; 0x6475706c6f;
  0x64757175657361; 0x647572616e7465; 0x64757669646f736f; 0x65636c6f646972; 0x65636f6172; 0x65636f6c6f676961; 0x6564696669636172; 0x65646974616c;
  0x6564756361646f; 0x65666569746f; 0x6566657469766172; 0x656a65746172; 0x656c61626f726172; 0x656c65676572; 0x656c6569746f72; 0x656c656e636f;
  0x656c657661646f72; 0x656c696d696e6172; 0x656c6f67696172; 0x656d626172676f; 0x656d626f6c61646f; 0x656d6272756c686f; 0x656d62757469646f; 0x656d656e6461;
  0x656d6572676972; 0x656d6973736f72; 0x656d7061746961; 0x656d70656e686f; 0x656d70696e61646f; 0x656d706f6c676172; 0x656d707265676f; 0x656d707572726172;
  0x656d756c61646f72; 0x656e6361697865; 0x656e63656e61646f; 0x656e6368656e7465; 0x656e636f6e74726f; 0x656e646575736172; 0x656e646f73736172; 0x656e666169786172;
  0x656e6665697465; 0x656e66696d; 0x656e67616a61646f; 0x656e67656e686f; 0x656e676c6f626172; 0x656e676f6d61646f; 0x656e677261786172; 0x656e67756961;
  0x656e6a6f6172; 0x656e6c61746172; 0x656e7175616e746f; 0x656e7261697a6172; 0x656e726f6c61646f; 0x656e7275676172; 0x656e7361696f; 0x656e7365616461;
  0x656e73696e6f; 0x656e736f7061646f; 0x656e74616e746f; 0x656e746561646f; 0x656e746964616465; 0x656e746f72746172; 0x656e7472616461; 0x656e74756c686f;
  0x656e766572676172; 0x656e766961646f; 0x656e766f6c766572; 0x656e78616d65; 0x656e786572746f; 0x656e786f667265; 0x656e7875746f; 0x6570696465726d65;
  0x65717569706172; 0x657265746f; 0x6572677569646f; 0x657272617461; 0x65727661; 0x657276696c6861; 0x657362616e6a6172; 0x657362656c746f;
  0x657363616d61; 0x6573636f6c61; 0x65736372697461; 0x657363757461; 0x657366696e6765; 0x6573666f6c6172; 0x6573667265676172; 0x657366756d61646f;
  0x65736772696d61; 0x65736d616c7465; 0x657370616e746f; 0x657370656c686f; 0x657370696761; 0x6573706f6e6a61; 0x6573707265697461; 0x657370756d6172;
  0x6573717565726461; 0x657374616361; 0x65737465697261; 0x65737469636172; 0x6573746f6661646f; 0x65737472656c61; 0x65737475646f; 0x657376617a696172;
  0x6574616e6f6c; 0x6574697175657461; 0x6575666f726961; 0x6575726f706575; 0x65766163756172; 0x657661706f726172; 0x6576617369766f; 0x6576656e7475616c;
  0x65766964656e7465; 0x65766f6c756972; 0x6578616765726f; 0x6578616c6172; 0x6578616d696e6172; 0x657861746f; 0x6578617573746f; 0x6578636573736f;
  0x65786369746172; 0x6578636c616d6172; 0x6578656375746172; 0x6578656d706c6f; 0x657869626972; 0x65786967656e7465; 0x65786f6e65726172; 0x657870616e646972;
  0x657870656c6972; 0x65787069726172; 0x6578706c616e6172; 0x6578706f73746f; 0x657870726573736f; 0x657870756c736172; 0x65787465726e6f; 0x657874696e746f;
  0x6578747261746f; 0x6661627269636172; 0x666162756c6f736f; 0x666163657461; 0x66616369616c; 0x66616461; 0x666164696761; 0x6661697861;
  0x66616c6172; 0x66616c7461; 0x66616d696c696172; 0x66616e64616e676f; 0x66616e6661727261; 0x66616e746f636865; 0x6661726461646f; 0x666172656c6f;
  0x666172696e6861; 0x6661726f6661; 0x6661727061; 0x66617274757261; 0x6661746961; 0x6661746f72; 0x6661766f72697461; 0x666178696e61;
  0x66617a656e6461; 0x6665636861646f; 0x6665696a6f616461; 0x66656972616e7465; 0x66656c696e6f; 0x66656d696e696e6f; 0x66656e6461; 0x66656e6f;
  0x66657261; 0x6665726961646f; 0x666572727567656d; 0x666572766572; 0x66657374656a6172; 0x666574616c; 0x66657564616c; 0x666961706f;
  0x666962726f7365; 0x6669636172; 0x666963686569726f; 0x666967757261646f; 0x66696c65697261; 0x66696c686f; 0x66696c6d65; 0x66696c74726172;
  0x6669726d657a61; 0x66697367616461; 0x66697373757261; 0x66697461; 0x666976656c61; 0x66697861646f72; 0x6669786f; 0x666c61636964657a;
  0x666c616d696e676f; 0x666c616e656c61; 0x666c656368616461; 0x666c6f7261; 0x666c7574756172; 0x666c75786f; 0x666f63616c; 0x666f63696e686f;
  0x666f666f636172; 0x666f676f; 0x666f6775657465; 0x666f696365; 0x666f6c6761646f; 0x666f6c6865746f; 0x666f726a6172; 0x666f726d696761;
  0x666f726e6f; 0x666f727465; 0x666f73636f; 0x666f737361; 0x66726167617461; 0x6672616c6461; 0x6672616e676f; 0x66726173636f;
  0x6672617465726e6f; 0x667265697261; 0x6672656e7465; 0x667265746172; 0x667269657a61; 0x667269736f; 0x66726974757261; 0x66726f6e6861;
  0x6672757374726172; 0x6672757465697261; 0x6675676972; 0x66756c616e6f; 0x66756c6967656d; 0x66756e646172; 0x66756e676f; 0x66756e696c;
  0x66757261646f72; 0x667572696f736f; 0x66757465626f6c; 0x676162617269746f; 0x676162696e657465; 0x6761646f; 0x67616961746f; 0x6761696f6c61;
  0x676169766f7461; 0x67616c656761; 0x67616c686f; 0x67616c696e6861; 0x67616c6f636861; 0x67616e686172; 0x6761726167656d; 0x676172666f;
  0x67617267616c6f; 0x676172696d706f; 0x6761726f757061; 0x67617272616661; 0x6761736f6475746f; 0x676173746f; 0x67617461; 0x676174696c686f;
  0x676176657461; 0x67617a656c61; 0x67656c61646f; 0x67656c656961; 0x67656c6f; 0x67656d616461; 0x67656d6572; 0x67656d69646f;
  0x67656e65726f736f; 0x67656e67697661; 0x67656e69616c; 0x67656e6f6d61; 0x67656e726f; 0x67656f6c6f676961; 0x67657261646f72; 0x6765726d696e6172;
  0x676573736f; 0x676573746f72; 0x67696e61737461; 0x67696e63616e61; 0x67696e6761646f; 0x676972616661; 0x676972696e6f; 0x676c616369616c;
  0x676c69636f7365; 0x676c6f62616c; 0x676c6f72696f736f; 0x676f656c61; 0x676f69616261; 0x676f6c6665; 0x676f6c70656172; 0x676f7264757261;
  0x676f726a657461; 0x676f72726f; 0x676f73746f736f; 0x676f7465697261; 0x676f7665726e6172; 0x67726163656a6f; 0x6772616475616c; 0x67726166697465;
  0x6772616c6861; 0x6772616d706f; 0x6772616e616461; 0x677261747569746f; 0x6772617665746f; 0x6772617861; 0x677265676f; 0x6772656c686172;
  0x6772657665; 0x6772696c6f; 0x67726973616c686f; 0x6772697461726961; 0x67726f73736f; 0x67726f746573636f; 0x6772756461646f; 0x6772756e6869646f;
  0x6772757461; 0x677561636865; 0x67756172616e69; 0x67756178696e696d; 0x6775657272656172; 0x6775696172; 0x6775696e63686f; 0x6775697361646f;
  0x67756c61; 0x67756c6f736f; 0x67757275; 0x68616269746172; 0x6861726d6f6e6961; 0x6861737465; 0x6861766572; 0x68656374617265;
  0x686572646172; 0x68657265736961; 0x68657369746172; 0x686961746f; 0x68696265726e6172; 0x6869647261746172; 0x6869656e61; 0x68696e6f;
  0x68697069736d6f; 0x6869706e6f7365; 0x6869706f74656361; 0x686f6a65; 0x686f6c6f666f7465; 0x686f6d656d; 0x686f6e6573746f; 0x686f6e7261646f;
  0x686f726d6f6e616c; 0x686f737065646172; 0x68756d6f7261646f; 0x69617465; 0x6964656961; 0x69646f736f; 0x69676e6f7261646f; 0x696772656a61;
  0x696775616e61; 0x696c65736f; 0x696c6861; 0x696c756469646f; 0x696c756d696e6172; 0x696c757374726172; 0x696d6167656d; 0x696d65646961746f;
  0x696d656e736f; 0x696d65727369766f; 0x696d696e656e7465; 0x696d697461646f72; 0x696d6f7274616c; 0x696d706163746f; 0x696d7065646972; 0x696d706c616e7465;
  0x696d706f72; 0x696d7072656e7361; 0x696d70756e65; 0x696d756e697a6172; 0x696e616c61646f72; 0x696e6170746f; 0x696e617469766f; 0x696e63656e736f;
  0x696e63686172; 0x696e6369646972; 0x696e636c756972; 0x696e636f6c6f72; 0x696e64656369736f; 0x696e64697265746f; 0x696e6475746f72; 0x696e65666963617a;
  0x696e6572656e7465; 0x696e66616e74696c; 0x696e666573746172; 0x696e66696e69746f; 0x696e666c616d6172; 0x696e666f726d616c; 0x696e667261746f72; 0x696e6765726972;
  0x696e696269646f; 0x696e696369616c; 0x696e696d69676f; 0x696e6a65746172; 0x696e6f63656e7465; 0x696e6f646f726f; 0x696e6f7661646f72; 0x696e6f78;
  0x696e71756965746f; 0x696e73637269746f; 0x696e7365746f; 0x696e736973746972; 0x696e737065746f72; 0x696e7374616c6172; 0x696e73756c746f; 0x696e746163746f;
  0x696e74656772616c; 0x696e74696d6172; 0x696e746f6361646f; 0x696e7472696761; 0x696e7661736f72; 0x696e7665726e6f; 0x696e766963746f; 0x696e766f636172;
  0x696f6775727465; 0x6972616e69616e6f; 0x69726f6e697a6172; 0x69727265616c; 0x697272697461646f; 0x69736361; 0x6973656e746f; 0x69736f6c61646f;
  0x697371756569726f; 0x6974616c69616e6f; 0x6a616e6569726f; 0x6a616e67616461; 0x6a616e7461; 0x6a61726172616361; 0x6a617264696d; 0x6a6172726f;
  0x6a61736d696d; 0x6a61746f; 0x6a6176616c69; 0x6a617a696461; 0x6a656a756d; 0x6a6f616e696e6861; 0x6a6f656c68616461; 0x6a6f6761646f72;
  0x6a6f6961; 0x6a6f726e616c; 0x6a6f72726172; 0x6a6f76656d; 0x6a756261; 0x6a75646575; 0x6a75646f6361; 0x6a75697a;
  0x6a756c6761646f72; 0x6a756c686f; 0x6a757261646f; 0x6a757269737461; 0x6a75726f; 0x6a75737461; 0x6c61626172656461; 0x6c61626f72616c;
  0x6c61637265; 0x6c616374616e7465; 0x6c616472696c686f; 0x6c616761727461; 0x6c61676f61; 0x6c616a65; 0x6c616d626572; 0x6c616d656e746172;
  0x6c616d696e6172; 0x6c616d70656a6f; 0x6c616e636865; 0x6c617069646172; 0x6c6170736f; 0x6c6172616e6a61; 0x6c617265697261; 0x6c617267757261;
  0x6c6173616e6861; 0x6c617374726f; 0x6c61746572616c; 0x6c617469646f; 0x6c6176616e6461; 0x6c61766f757261; 0x6c61767261646f72; 0x6c6178616e7465;
  0x6c617a6572; 0x6c65616c64616465; 0x6c65627265; 0x6c656761646f; 0x6c6567656e646172; 0x6c656769737461; 0x6c6569676f; 0x6c65696c6f6172;
  0x6c656974757261; 0x6c656d6272657465; 0x6c656d65; 0x6c656e6861646f72; 0x6c656e74696c6861; 0x6c656f61; 0x6c65736d61; 0x6c65737465;
  0x6c657469766f; 0x6c6574726569726f; 0x6c65766172; 0x6c6576657a61; 0x6c657669746172; 0x6c69626572616c; 0x6c696269646f; 0x6c696465726172;
  0x6c69676172; 0x6c69676569726f; 0x6c696d69746172; 0x6c696d6f6569726f; 0x6c696d7061646f72; 0x6c696e6461; 0x6c696e656172; 0x6c696e686167656d;
  0x6c6971756964657a; 0x6c6973746167656d; 0x6c6973757261; 0x6c69746f72616c; 0x6c6976726f; 0x6c697861; 0x6c697865697261; 0x6c6f6361646f72;
  0x6c6f6375746f72; 0x6c6f6a69737461; 0x6c6f6d626f; 0x6c6f6e61; 0x6c6f6e6765; 0x6c6f6e747261; 0x6c6f726465; 0x6c6f7461646f;
  0x6c6f7465726961; 0x6c6f7563757261; 0x6c6f757361; 0x6c6f75766172; 0x6c756172; 0x6c75636964657a; 0x6c7563726f; 0x6c756e657461;
  0x6c7573747265; 0x6c757461646f72; 0x6c757661; 0x6d616361636f; 0x6d6163657465; 0x6d61636861646f; 0x6d6163696f; 0x6d616465697261;
  0x6d616472696e6861; 0x6d61676e617461; 0x6d616772657a61; 0x6d61696f72; 0x6d616973; 0x6d616c616e64726f; 0x6d616c6861; 0x6d616c6f7465;
  0x6d616c75636f; 0x6d616d696c6f; 0x6d616d6f6569726f; 0x6d616d757465; 0x6d616e616461; 0x6d616e636861; 0x6d616e6461746f; 0x6d616e657175696d;
  0x6d616e686f736f; 0x6d616e6976656c61; 0x6d616e6f62726172; 0x6d616e7361; 0x6d616e746572; 0x6d616e7573656172; 0x6d61706561646f; 0x6d617175696e6172;
  0x6d61726361646f72; 0x6d617265736961; 0x6d617266696d; 0x6d617267656d; 0x6d6172696e686f; 0x6d61726d697461; 0x6d61726f746f; 0x6d61727175697365;
  0x6d61727265636f; 0x6d617274656c6f; 0x6d6172756a6f; 0x6d6173636f7465; 0x6d61736d6f727261; 0x6d6173736167656d; 0x6d61737469676172; 0x6d61746167616c;
  0x6d617465726e6f; 0x6d6174696e616c; 0x6d617475746172; 0x6d6178696c6172; 0x6d6564616c6861; 0x6d6564696461; 0x6d6564757361; 0x6d656761666f6e65;
  0x6d65696761; 0x6d656c616e636961; 0x6d656c686f72; 0x6d656d62726f; 0x6d656d6f7269616c; 0x6d656e696e6f; 0x6d656e6f73; 0x6d656e736167656d;
  0x6d656e74616c; 0x6d657265636572; 0x6d657267756c686f; 0x6d6573616461; 0x6d6573636c6172; 0x6d65736d6f; 0x6d65737175697461; 0x6d6573747265;
  0x6d6574616465; 0x6d6574656f726f; 0x6d6574726167656d; 0x6d65786572; 0x6d65786963616e6f; 0x6d6963726f; 0x6d6967616c6861; 0x6d6967726172;
  0x6d696c61677265; 0x6d696c656e6172; 0x6d696c686172; 0x6d696d61646f; 0x6d696e65726172; 0x6d696e686f6361; 0x6d696e697374726f; 0x6d696e6f726961;
  0x6d696f6c6f; 0x6d6972616e7465; 0x6d697274696c6f; 0x6d69737475726172; 0x6d6f636964616465; 0x6d6f6465726e6f; 0x6d6f64756c6172; 0x6d6f656461;
  0x6d6f6572; 0x6d6f696e686f; 0x6d6f697461; 0x6d6f6c64757261; 0x6d6f6c657a61; 0x6d6f6c686f; 0x6d6f6c696e657465; 0x6d6f6c7573636f;
  0x6d6f6e74616e6861; 0x6d6f7175656361; 0x6d6f72616e676f; 0x6d6f726365676f; 0x6d6f72646f6d6f; 0x6d6f72656e61; 0x6d6f736169636f; 0x6d6f737175657465;
  0x6d6f737461726461; 0x6d6f74656c; 0x6d6f74696d; 0x6d6f746f; 0x6d6f7472697a; 0x6d756461; 0x6d7569746f; 0x6d756c617461;
  0x6d756c686572; 0x6d756c746172; 0x6d756e6469616c; 0x6d756e69646f; 0x6d7572616c6861; 0x6d757263686f; 0x6d757363756c6172; 0x6d75736575;
  0x6d75736963616c; 0x6e6163696f6e616c; 0x6e616461646f72; 0x6e616a61; 0x6e616d6f726f; 0x6e6172696e61; 0x6e61727261646f; 0x6e6173636572;
  0x6e6174697661; 0x6e61747572657a61; 0x6e6176616c6861; 0x6e617665676172; 0x6e6176696f; 0x6e65626c696e61; 0x6e6562756c6f736f; 0x6e65676174697661;
  0x6e65676f63696172; 0x6e65677269746f; 0x6e6572766f736f; 0x6e657461; 0x6e657572616c; 0x6e657661736361; 0x6e65766f6569726f; 0x6e696e6172;
  0x6e696e686f; 0x6e69746964657a; 0x6e6976656c6172; 0x6e6f6272657a61; 0x6e6f697465; 0x6e6f697661; 0x6e6f6d656172; 0x6e6f6d696e616c;
  0x6e6f726465737465; 0x6e6f7274656172; 0x6e6f746172; 0x6e6f746963696172; 0x6e6f7475726e6f; 0x6e6f76656c6f; 0x6e6f76696c686f; 0x6e6f766f;
  0x6e75626c61646f; 0x6e7564657a; 0x6e756d6572616c; 0x6e75706369616c; 0x6e7574726972; 0x6e7576656d; 0x6f6263656361646f; 0x6f62656465636572;
  0x6f626a657469766f; 0x6f6272696761646f; 0x6f62736375726f; 0x6f62737465747261; 0x6f62746572; 0x6f627475726172; 0x6f636964656e7465; 0x6f63696f736f;
  0x6f636f72726572; 0x6f63756c69737461; 0x6f63757061646f; 0x6f666567616e7465; 0x6f66656e73697661; 0x6f666572656e6461; 0x6f666963696e61; 0x6f6675736361646f;
  0x6f67697661; 0x6f6c61726961; 0x6f6c656f736f; 0x6f6c686172; 0x6f6c697665697261; 0x6f6d62726f; 0x6f6d656c657465; 0x6f6d6973736f;
  0x6f6d69746972; 0x6f6e64756c61646f; 0x6f6e65726f736f; 0x6f6e74656d; 0x6f7063696f6e616c; 0x6f70657261646f72; 0x6f706f6e656e7465; 0x6f706f7274756e6f;
  0x6f706f73746f; 0x6f726172; 0x6f726269746172; 0x6f7264656d; 0x6f7264696e616c; 0x6f7266616e61746f; 0x6f726761736d6f; 0x6f7267756c686f;
  0x6f7269656e74616c; 0x6f726967656d; 0x6f7269756e646f; 0x6f726c61; 0x6f72746f646f786f; 0x6f7276616c686f; 0x6f7363696c6172; 0x6f7373616461;
  0x6f73736f; 0x6f7374656e746172; 0x6f74696d69736d6f; 0x6f757361646961; 0x6f75746f6e6f; 0x6f75747562726f; 0x6f757669646f; 0x6f76656c6861;
  0x6f76756c6172; 0x6f7869646172; 0x6f786967656e6172; 0x70616361746f; 0x70616369656e7465; 0x7061636f7465; 0x70616374756172; 0x70616461726961;
  0x70616472696e686f; 0x7061676172; 0x7061676f6465; 0x7061696e656c; 0x706169726172; 0x706169736167656d; 0x70616c61767261; 0x70616c6573747261;
  0x70616c68657461; 0x70616c69746f; 0x70616c6d616461; 0x70616c7069746172; 0x70616e63616461; 0x70616e656c61; 0x70616e666c65746f; 0x70616e7175656361;
  0x70616e74616e616c; 0x706170616761696f; 0x706170656c616461; 0x70617069726f; 0x7061726166696e61; 0x7061726369616c; 0x70617264616c; 0x706172656465;
  0x70617274696461; 0x7061736d6f; 0x7061737361646f; 0x70617374656c; 0x706174616d6172; 0x706174656e7465; 0x706174696e6172; 0x706174726f6e6f;
  0x7061756c616461; 0x706175736172; 0x706563756c696172; 0x706564616c6172; 0x7065646573747265; 0x7065646961747261; 0x7065647261; 0x706567616461;
  0x706569746f72616c; 0x7065697865; 0x70656c65; 0x70656c6963616e6f; 0x70656e6361; 0x70656e6475726172; 0x70656e65697261; 0x70656e686173636f;
  0x70656e7361646f72; 0x70656e7465; 0x7065726365626572; 0x706572666569746f; 0x70657267756e7461; 0x70657269746f; 0x7065726d69746972; 0x7065726e61;
  0x706572706c65786f; 0x7065727369616e61; 0x70657274656e6365; 0x706572756361; 0x7065736361646f; 0x7065737175697361; 0x706573736f61; 0x7065746973636172;
  0x7069616461; 0x70696361646f; 0x70696564616465; 0x7069676d656e746f; 0x70696c6173747261; 0x70696c6861646f; 0x70696c6f746172; 0x70696d656e7461;
  0x70696e63656c; 0x70696e6775696d; 0x70696e6861; 0x70696e6f7465; 0x70696e746172; 0x70696f6e6569726f; 0x7069706f6361; 0x70697175657465;
  0x706972616e6861; 0x7069726573; 0x70697275657461; 0x706973636172; 0x706973746f6c61; 0x706974616e6761; 0x706976657465; 0x706c616e7461;
  0x706c617175657461; 0x706c6174696e61; 0x706c65626575; 0x706c756d6167656d; 0x706c757669616c; 0x706e6575; 0x706f6461; 0x706f65697261;
  0x706f6574697361; 0x706f6c6567616461; 0x706f6c6963696172; 0x706f6c75656e7465; 0x706f6c76696c686f; 0x706f6d6172; 0x706f6d6261; 0x706f6e6465726172;
  0x706f6e7461726961; 0x706f70756c6f736f; 0x706f727461; 0x706f7373756972; 0x706f7374616c; 0x706f7465; 0x706f75706172; 0x706f75736f;
  0x706f766f6172; 0x7072616961; 0x7072616e636861; 0x707261746f; 0x7072617865; 0x7072656365; 0x7072656461646f72; 0x707265666569746f;
  0x7072656d696172; 0x7072656e736172; 0x7072657061726172; 0x70726573696c6861; 0x707265746578746f; 0x70726576656e6972; 0x7072657a6172; 0x7072696d617461;
  0x7072696e63657361; 0x707269736d61; 0x7072697661646f; 0x70726f636573736f; 0x70726f6475746f; 0x70726f66657461; 0x70726f696269646f; 0x70726f6a65746f;
  0x70726f6d65746572; 0x70726f7061676172; 0x70726f7361; 0x70726f7465746f72; 0x70726f7661646f72; 0x7075626c69636172; 0x707564696d; 0x70756c6172;
  0x70756c6d6f6e6172; 0x70756c7365697261; 0x70756e68616c; 0x70756e6972; 0x707570696c6f; 0x707572657a61; 0x70757861646f72; 0x717561647261;
  0x7175616e746961; 0x71756172746f; 0x7175617365; 0x71756562726172; 0x7175656461; 0x717565696a6f; 0x7175656e7465; 0x7175657269646f;
  0x7175696d6f6e6f; 0x7175696e61; 0x7175696f73717565; 0x726162616e616461; 0x7261626973636f; 0x726163686172; 0x726163696f6e6172; 0x72616469616c;
  0x7261696172; 0x7261696e6861; 0x7261696f; 0x7261697661; 0x72616a616461; 0x72616c61646f; 0x72616d616c; 0x72616e676572;
  0x72616e68757261; 0x7261706164757261; 0x726170656c; 0x7261706964657a; 0x7261706f7361; 0x72617175657465; 0x7261726964616465; 0x726173616e7465;
  0x72617363756e686f; 0x726173676172; 0x7261737061646f72; 0x7261737465697261; 0x72617375726172; 0x726174617a616e61; 0x7261746f65697261; 0x7265616c657a61;
  0x7265616e696d6172; 0x726561766572; 0x7265626169786172; 0x726562656c6465; 0x7265626f6c6172; 0x72656361646f; 0x726563656e7465; 0x7265636865696f;
  0x72656369626f; 0x7265636f72646172; 0x7265637275746172; 0x726563756172; 0x72656465; 0x726564696d6972; 0x7265646f6e6461; 0x726564757a696461;
  0x7265656e76696f; 0x726566696e6172; 0x7265666c65746972; 0x7265666f676172; 0x726566726573636f; 0x7265667567696172; 0x726567616c6961; 0x726567696d65;
  0x7265677261; 0x7265696e61646f; 0x726569746f72; 0x72656a6569746172; 0x72656c617469766f; 0x72656d61646f72; 0x72656d656e646f; 0x72656d6f72736f;
  0x72656e6f7661646f; 0x72657061726f; 0x726570656c6972; 0x7265706c65746f; 0x7265706f6c686f; 0x72657072657361; 0x7265707564696172; 0x7265717565726572;
  0x726573656e6861; 0x7265736672696172; 0x7265736761746172; 0x72657369646972; 0x7265736f6c766572; 0x726573706569746f; 0x72657373616361; 0x72657374616e7465;
  0x726573756d6972; 0x726574616c686f; 0x7265746572; 0x72657469726172; 0x7265746f6d616461; 0x7265747261746172; 0x726576656c6172; 0x72657669736f72;
  0x7265766f6c7461; 0x72696163686f; 0x72696361; 0x7269676964657a; 0x7269676f726f736f; 0x72696d6172; 0x72696e677565; 0x726973616461;
  0x726973636f; 0x7269736f6e686f; 0x726f62616c6f; 0x726f636865646f; 0x726f64616461; 0x726f6465696f; 0x726f646f766961; 0x726f65646f72;
  0x726f6c657461; 0x726f6d616e6f; 0x726f6e636172; 0x726f7361646f; 0x726f7365697261; 0x726f73746f; 0x726f7461; 0x726f746569726f;
  0x726f74696e61; 0x726f74756c6172; 0x726f75636f; 0x726f757061; 0x726f786f; 0x727562726f; 0x72756769646f; 0x7275676f736f;
  0x727569766f; 0x72756d6f; 0x7275706573747265; 0x727573736f; 0x7361626f72; 0x736163696172; 0x7361636f6c61; 0x73616375646972;
  0x736164696f; 0x736166697261; 0x73616761; 0x73616772616461; 0x73616962726f; 0x73616c616461; 0x73616c6569726f; 0x73616c6761646f;
  0x73616c697661; 0x73616c7069636172; 0x73616c7369636861; 0x73616c746172; 0x73616c7661646f72; 0x73616d626172; 0x73616d75726169; 0x73616e6172;
  0x73616e666f6e61; 0x73616e677565; 0x73616e6964616465; 0x73617061746f; 0x7361726461; 0x73617267656e746f; 0x7361726a657461; 0x73617475726172;
  0x73617564616465; 0x7361786f666f6e65; 0x73617a6f6e616c; 0x7365636172; 0x736563756c6172; 0x73656461; 0x736564656e746f; 0x7365646961646f;
  0x7365646f736f; 0x73656475746f72; 0x7365676d656e746f; 0x7365677265646f; 0x736567756e646f; 0x7365697661; 0x73656c65746f; 0x73656c766167656d;
  0x73656d616e616c; 0x73656d656e7465; 0x73656e61646f72; 0x73656e686f72; 0x73656e7375616c; 0x73656e7461646f; 0x736570617261646f; 0x736572656961;
  0x736572696e6761; 0x7365727261; 0x736572766f; 0x736574656d62726f; 0x7365746f72; 0x736967696c6f; 0x73696c6875657461; 0x73696c69636f6e65;
  0x73696d6574726961; 0x73696d7061746961; 0x73696d756c6172; 0x73696e616c; 0x73696e6365726f; 0x73696e67756c6172; 0x73696e6f707365; 0x73696e746f6e6961;
  0x736972656e65; 0x73697269; 0x7369747561646f; 0x736f626572616e6f; 0x736f627261; 0x736f636f72726f; 0x736f67726f; 0x736f6a61;
  0x736f6c6461; 0x736f6c6574726172; 0x736f6c746569726f; 0x736f6d6272696f; 0x736f6e617461; 0x736f6e646172; 0x736f6e65676172; 0x736f6e6861646f72;
  0x736f6e6f; 0x736f7072616e6f; 0x736f7175657465; 0x736f72726972; 0x736f727465696f; 0x736f737365676f; 0x736f7461717565; 0x736f746572726172;
  0x736f7661646f; 0x736f7a696e686f; 0x73756176697a6172; 0x737562696461; 0x7375626d6572736f; 0x737562736f6c6f; 0x7375627472616972; 0x737563617461;
  0x7375636573736f; 0x7375636f; 0x73756465737465; 0x73756669786f; 0x73756761646f72; 0x73756765726972; 0x73756a6569746f; 0x73756c6661746f;
  0x73756d6972; 0x73756f72; 0x7375706572696f72; 0x7375706c69636172; 0x7375706f73746f; 0x73757072696d6972; 0x73757264696e61; 0x7375726669737461;
  0x7375727072657361; 0x7375727265616c; 0x737572746972; 0x7375737069726f; 0x73757374656e746f; 0x746162656c61; 0x7461626c657465; 0x74616275616461;
  0x746163686f; 0x7461676172656c61; 0x74616c686572; 0x74616c6f; 0x74616c76657a; 0x74616d616e686f; 0x74616d626f72696d; 0x74616d7061;
  0x74616e67656e7465; 0x74616e746f; 0x7461706172; 0x746170696f6361; 0x74617264696f; 0x746172656661; 0x7461726a61; 0x74617272617861;
  0x746174756167656d; 0x74617572696e6f; 0x746178617469766f; 0x74617869737461; 0x7465617472616c; 0x7465636572; 0x74656369646f; 0x7465636c61646f;
  0x746564696f736f; 0x74656961; 0x7465696d6172; 0x74656c65666f6e65; 0x74656c6861646f; 0x74656d7065726f; 0x74656e656e7465; 0x74656e736f72;
  0x74656e746172; 0x7465726d616c; 0x7465726e6f; 0x74657272656e6f; 0x74657365; 0x7465736f757261; 0x7465737461646f; 0x7465746f;
  0x74657874757261; 0x74657875676f; 0x7469617261; 0x746967656c61; 0x74696a6f6c6f; 0x74696d62726172; 0x74696d6964657a; 0x74696e6769646f;
  0x74696e746569726f; 0x7469726167656d; 0x746974756c6172; 0x746f616c6861; 0x746f636861; 0x746f6c65726172; 0x746f6c696365; 0x746f6d616461;
  0x746f6d696c686f; 0x746f6e656c; 0x746f6e74757261; 0x746f70657465; 0x746f7261; 0x746f726369646f; 0x746f726e65696f; 0x746f72717565;
  0x746f7272616461; 0x746f72746f; 0x746f73746172; 0x746f756361; 0x746f757065697261; 0x746f78696e61; 0x74726162616c686f; 0x74726163656a6172;
  0x7472616475746f72; 0x7472616665676172; 0x7472616a65746f; 0x7472616d61; 0x7472616e636172; 0x747261706f; 0x747261736569726f; 0x7472617461646f72;
  0x747261766172; 0x747265696e6f; 0x7472656d6572; 0x7472657069646172; 0x747265766f; 0x7472696167656d; 0x747269626f; 0x7472696369636c6f;
  0x74726964656e7465; 0x7472696c6f676961; 0x7472696e64616465; 0x747269706c6f; 0x7472697475726172; 0x747269756e66616c; 0x74726f636172; 0x74726f6d62657461;
  0x74726f7661; 0x7472756e666f; 0x747275717565; 0x747562756c6172; 0x747563616e6f; 0x7475646f; 0x74756c697061; 0x74757069;
  0x747572626f; 0x7475726d61; 0x7475727175657361; 0x747574656c6172; 0x7475746f7269616c; 0x7569766172; 0x756d6269676f; 0x756e6861;
  0x756e6964616465; 0x756e69666f726d65; 0x75726f6c6f676961; 0x7572736f; 0x757274696761; 0x7572756275; 0x757361646f; 0x7573696e61;
  0x7573756672756972; 0x766163696e61; 0x766164696172; 0x76616761726f736f; 0x766169646f736f; 0x76616c61; 0x76616c656e7465; 0x76616c6964616465;
  0x76616c6f726573; 0x76616e746167656d; 0x766171756569726f; 0x766172616e6461; 0x766172657461; 0x766172726572; 0x76617363756c6172; 0x766173696c6861;
  0x766173736f757261; 0x76617a6172; 0x76617a696f; 0x766561646f; 0x7665646172; 0x76656765746172; 0x76656963756c6172; 0x76656c6569726f;
  0x76656c68696365; 0x76656c75646f; 0x76656e6365646f72; 0x76656e646176616c; 0x76656e65726172; 0x76656e747265; 0x76657262616c; 0x76657264616465;
  0x7665726561646f72; 0x766572676f6e6861; 0x7665726d656c686f; 0x7665726e697a; 0x766572736172; 0x76657274656e7465; 0x7665737061; 0x7665737469646f;
  0x7665746f7269616c; 0x7669616475746f; 0x76696167656d; 0x7669616a6172; 0x76696174757261; 0x7669627261646f72; 0x76696465697261; 0x7669647261726961;
  0x7669656c61; 0x76696761; 0x766967656e7465; 0x766967696172; 0x7669676f726172; 0x76696c6172656a6f; 0x76696e636f; 0x76696e68657461;
  0x76696e696c; 0x76696f6c657461; 0x766972616461; 0x76697274756465; 0x76697369746172; 0x766973746f; 0x76697472616c; 0x7669766569726f;
  0x76697a696e686f; 0x766f61646f72; 0x766f6172; 0x766f67616c; 0x766f6c616e7465; 0x766f6c6569626f6c; 0x766f6c746167656d; 0x766f6c756d6f736f;
  0x766f6e74616465; 0x76756c746f; 0x767576757a656c61; 0x78616472657a; 0x7861726f7065; 0x7865717565; 0x78657265746172; 0x786572696665;
  0x78696e676172; 0x7a616e6761646f; 0x7a6172706172; 0x7a656275; 0x7a656c61646f72; 0x7a6f6d626172; 0x7a6f6f6c6f676961; 0x7a756d6269646f].

(** bip39_dictionary.hpp:19718-21767 *)
Definition dict_spanish : list Z := [
  0x61cc816261636f; 0x6162646f6d656e; 0x6162656a61; 0x6162696572746f; 0x61626f6761646f; 0x61626f6e6f; 0x61626f72746f; 0x616272617a6f;
  0x6162726972; 0x616275656c6f; 0x616275736f; 0x616361626172; 0x61636164656d6961; 0x61636365736f; 0x616363696fcc816e; 0x616365697465;
  0x6163656c6761; 0x6163656e746f; 0x61636570746172; 0x61cc816369646f; 0x61636c61726172; 0x61636e65cc81; 0x61636f676572; 0x61636f736f;
  0x61637469766f; 0x6163746f; 0x61637472697a; 0x616374756172; 0x616375646972; 0x6163756572646f; 0x616375736172; 0x61646963746f;
  0x61646d69746972; 0x61646f70746172; 0x61646f726e6f; 0x616475616e61; 0x6164756c746f; 0x6165cc8172656f; 0x61666563746172; 0x61666963696fcc816e;
  0x6166696e6172; 0x616669726d6172; 0x61cc8167696c; 0x616769746172; 0x61676f6e69cc8161; 0x61676f73746f; 0x61676f746172; 0x61677265676172;
  0x616772696f; 0x61677561; 0x616775646f; 0x61cc816775696c61; 0x6167756a61; 0x61686f676f; 0x61686f72726f; 0x61697265;
  0x6169736c6172; 0x616a656472657a; 0x616a656e6f; 0x616a75737465; 0x616c61637261cc816e; 0x616c616d627265; 0x616c61726d61; 0x616c6261;
  0x61cc816c62756d; 0x616c63616c6465; 0x616c646561; 0x616c65677265; 0x616c656a6172; 0x616c65727461; 0x616c657461; 0x616c66696c6572;
  0x616c6761; 0x616c676f646fcc816e; 0x616c6961646f; 0x616c69656e746f; 0x616c6976696f; 0x616c6d61; 0x616c6d656a61; 0x616c6d69cc81626172;
  0x616c746172; 0x616c74657a61; 0x616c7469766f; 0x616c746f; 0x616c74757261; 0x616c756d6e6f; 0x616c7a6172; 0x616d61626c65;
  0x616d616e7465; 0x616d61706f6c61; 0x616d6172676f; 0x616d61736172; 0x61cc816d626172; 0x61cc816d6269746f; 0x616d656e6f; 0x616d69676f;
  0x616d6973746164; 0x616d6f72; 0x616d7061726f; 0x616d706c696f; 0x616e63686f; 0x616e6369616e6f; 0x616e636c61; 0x616e646172;
  0x616e6465cc816e; 0x616e656d6961; 0x61cc816e67756c6f; 0x616e696c6c6f; 0x61cc816e696d6f; 0x616e69cc8173; 0x616e6f746172; 0x616e74656e61;
  0x616e746967756f; 0x616e746f6a6f; 0x616e75616c; 0x616e756c6172; 0x616e756e63696f; 0x616ecc8361646972; 0x616ecc83656a6f; 0x616ecc836f;
  0x617061676172; 0x6170617261746f; 0x6170657469746f; 0x6170696f; 0x61706c69636172; 0x61706f646f; 0x61706f727465; 0x61706f796f;
  0x617072656e646572; 0x6170726f626172; 0x61707565737461; 0x617075726f; 0x617261646f; 0x6172616ecc8361; 0x61726172; 0x61cc8172626974726f;
  0x61cc8172626f6c; 0x6172627573746f; 0x6172636869766f; 0x6172636f; 0x6172646572; 0x617264696c6c61; 0x617264756f; 0x61cc81726561;
  0x61cc817269646f; 0x6172696573; 0x61726d6f6e69cc8161; 0x61726e65cc8173; 0x61726f6d61; 0x61727061; 0x6172706fcc816e; 0x61727265676c6f;
  0x6172726f7a; 0x617272756761; 0x61727465; 0x61727469737461; 0x617361; 0x617361646f; 0x6173616c746f; 0x617363656e736f;
  0x6173656775726172; 0x6173656f; 0x617365736f72; 0x617369656e746f; 0x6173696c6f; 0x61736973746972; 0x61736e6f; 0x61736f6d62726f;
  0x61cc81737065726f; 0x617374696c6c61; 0x617374726f; 0x61737475746f; 0x6173756d6972; 0x6173756e746f; 0x6174616a6f; 0x617461717565;
  0x61746172; 0x6174656e746f; 0x6174656f; 0x61cc817469636f; 0x61746c657461; 0x61cc81746f6d6f; 0x617472616572; 0x6174726f7a;
  0x617475cc816e; 0x617564617a; 0x617564696f; 0x61756765; 0x61756c61; 0x61756d656e746f; 0x617573656e7465; 0x6175746f72;
  0x6176616c; 0x6176616e6365; 0x617661726f; 0x617665; 0x6176656c6c616e61; 0x6176656e61; 0x617665737472757a; 0x6176696fcc816e;
  0x617669736f; 0x61796572; 0x6179756461; 0x6179756e6f; 0x617a61667261cc816e; 0x617a6172; 0x617a6f7465; 0x617a75cc81636172;
  0x617a75667265; 0x617a756c; 0x62616261; 0x6261626f72; 0x6261636865; 0x62616869cc8161; 0x6261696c65; 0x62616a6172;
  0x62616c616e7a61; 0x62616c636fcc816e; 0x62616c6465; 0x62616d6275cc81; 0x62616e636f; 0x62616e6461; 0x62616ecc836f; 0x6261726261;
  0x626172636f; 0x6261726e697a; 0x626172726f; 0x6261cc817363756c61; 0x626173746fcc816e; 0x626173757261; 0x626174616c6c61; 0x626174657269cc8161;
  0x6261746972; 0x626174757461; 0x626175cc816c; 0x62617a6172; 0x62656265cc81; 0x626562696461; 0x62656c6c6f; 0x6265736172;
  0x6265736f; 0x626573746961; 0x626963686f; 0x6269656e; 0x62696e676f; 0x626c616e636f; 0x626c6f717565; 0x626c757361;
  0x626f61; 0x626f62696e61; 0x626f626f; 0x626f6361; 0x626f63696e61; 0x626f6461; 0x626f64656761; 0x626f696e61;
  0x626f6c61; 0x626f6c65726f; 0x626f6c7361; 0x626f6d6261; 0x626f6e646164; 0x626f6e69746f; 0x626f6e6f; 0x626f6e7361cc8169;
  0x626f726465; 0x626f72726172; 0x626f73717565; 0x626f7465; 0x626f7469cc816e; 0x626fcc8176656461; 0x626f7a616c; 0x627261766f;
  0x6272617a6f; 0x627265636861; 0x6272657665; 0x6272696c6c6f; 0x6272696e636f; 0x6272697361; 0x62726f6361; 0x62726f6d61;
  0x62726f6e6365; 0x62726f7465; 0x6272756a61; 0x62727573636f; 0x627275746f; 0x627563656f; 0x6275636c65; 0x6275656e6f;
  0x62756579; 0x627566616e6461; 0x6275666fcc816e; 0x6275cc81686f; 0x627569747265; 0x62756c746f; 0x62757262756a61; 0x6275726c61;
  0x627572726f; 0x627573636172; 0x627574616361; 0x62757a6fcc816e; 0x636162616c6c6f; 0x636162657a61; 0x636162696e61; 0x6361627261;
  0x636163616f; 0x63616461cc81766572; 0x636164656e61; 0x63616572; 0x63616665cc81; 0x636169cc816461; 0x6361696d61cc816e; 0x63616a61;
  0x63616a6fcc816e; 0x63616c; 0x63616c616d6172; 0x63616c63696f; 0x63616c646f; 0x63616c69646164; 0x63616c6c65; 0x63616c6d61;
  0x63616c6f72; 0x63616c766f; 0x63616d61; 0x63616d62696f; 0x63616d656c6c6f; 0x63616d696e6f; 0x63616d706f; 0x6361cc816e636572;
  0x63616e64696c; 0x63616e656c61; 0x63616e6775726f; 0x63616e696361; 0x63616e746f; 0x63616ecc8361; 0x63616ecc836fcc816e; 0x63616f6261;
  0x63616f73; 0x636170617a; 0x636170697461cc816e; 0x6361706f7465; 0x636170746172; 0x63617075636861; 0x63617261; 0x636172626fcc816e;
  0x6361cc817263656c; 0x636172657461; 0x6361726761; 0x636172696ecc836f; 0x6361726e65; 0x63617270657461; 0x636172726f; 0x6361727461;
  0x63617361; 0x636173636f; 0x63617365726f; 0x6361737061; 0x636173746f72; 0x6361746f726365; 0x6361747265; 0x63617564616c;
  0x6361757361; 0x63617a6f; 0x6365626f6c6c61; 0x6365646572; 0x636564726f; 0x63656c6461; 0x6365cc816c65627265; 0x63656c6f736f;
  0x6365cc816c756c61; 0x63656d656e746f; 0x63656e697a61; 0x63656e74726f; 0x6365726361; 0x636572646f; 0x636572657a61; 0x6365726f;
  0x636572726172; 0x63657274657a61; 0x6365cc8173706564; 0x636574726f; 0x63686163616c; 0x6368616c65636f; 0x6368616d7075cc81; 0x6368616e636c61;
  0x6368617061; 0x636861726c61; 0x636869636f; 0x636869737465; 0x636869766f; 0x63686f717565; 0x63686f7a61; 0x6368756c657461;
  0x636875706172; 0x6369636c6fcc816e; 0x636965676f; 0x6369656c6f; 0x6369656e; 0x63696572746f; 0x6369667261; 0x6369676172726f;
  0x63696d61; 0x63696e636f; 0x63696e65; 0x63696e7461; 0x6369707265cc8173; 0x636972636f; 0x63697275656c61; 0x6369736e65;
  0x63697461; 0x636975646164; 0x636c616d6f72; 0x636c616e; 0x636c61726f; 0x636c617365; 0x636c617665; 0x636c69656e7465;
  0x636c696d61; 0x636c69cc816e696361; 0x636f627265; 0x636f6363696fcc816e; 0x636f6368696e6f; 0x636f63696e61; 0x636f636f; 0x636fcc816469676f;
  0x636f646f; 0x636f667265; 0x636f676572; 0x636f68657465; 0x636f6a69cc816e; 0x636f6a6f; 0x636f6c61; 0x636f6c636861;
  0x636f6c6567696f; 0x636f6c676172; 0x636f6c696e61; 0x636f6c6c6172; 0x636f6c6d6f; 0x636f6c756d6e61; 0x636f6d62617465; 0x636f6d6572;
  0x636f6d696461; 0x636fcc816d6f646f; 0x636f6d707261; 0x636f6e6465; 0x636f6e656a6f; 0x636f6e6761; 0x636f6e6f636572; 0x636f6e73656a6f;
  0x636f6e746172; 0x636f7061; 0x636f706961; 0x636f72617a6fcc816e; 0x636f7262617461; 0x636f7263686f; 0x636f72646fcc816e; 0x636f726f6e61;
  0x636f72726572; 0x636f736572; 0x636f736d6f73; 0x636f737461; 0x637261cc816e656f; 0x637261cc81746572; 0x6372656172; 0x637265636572;
  0x63726569cc81646f; 0x6372656d61; 0x637269cc8161; 0x6372696d656e; 0x637269707461; 0x637269736973; 0x63726f6d6f; 0x63726fcc816e696361;
  0x63726f7175657461; 0x637275646f; 0x6372757a; 0x63756164726f; 0x63756172746f; 0x63756174726f; 0x6375626f; 0x637562726972;
  0x63756368617261; 0x6375656c6c6f; 0x6375656e746f; 0x637565726461; 0x637565737461; 0x6375657661; 0x637569646172; 0x63756c65627261;
  0x63756c7061; 0x63756c746f; 0x63756d627265; 0x63756d706c6972; 0x63756e61; 0x63756e657461; 0x63756f7461; 0x6375706fcc816e;
  0x6375cc8170756c61; 0x6375726172; 0x637572696f736f; 0x637572736f; 0x6375727661; 0x6375746973; 0x64616d61; 0x64616e7a61;
  0x646172; 0x646172646f; 0x6461cc8174696c; 0x6465626572; 0x6465cc8162696c; 0x6465cc8163616461; 0x6465636972; 0x6465646f;
  0x646566656e7361; 0x646566696e6972; 0x64656a6172; 0x64656c6669cc816e; 0x64656c6761646f; 0x64656c69746f; 0x64656d6f7261; 0x64656e736f;
  0x64656e74616c; 0x6465706f727465; 0x6465726563686f; 0x646572726f7461; 0x6465736179756e6f; 0x646573656f; 0x64657366696c65; 0x6465736e75646f;
  0x64657374696e6f; 0x6465737669cc816f; 0x646574616c6c65; 0x646574656e6572; 0x6465756461; 0x6469cc8161; 0x646961626c6f; 0x64696164656d61;
  0x6469616d616e7465; 0x6469616e61; 0x64696172696f; 0x646962756a6f; 0x646963746172; 0x6469656e7465; 0x6469657461; 0x6469657a;
  0x64696669cc8163696c; 0x6469676e6f; 0x64696c656d61; 0x64696c756972; 0x64696e65726f; 0x6469726563746f; 0x64697269676972; 0x646973636f;
  0x646973656ecc836f; 0x6469736672617a; 0x64697661; 0x646976696e6f; 0x646f626c65; 0x646f6365; 0x646f6c6f72; 0x646f6d696e676f;
  0x646f6e; 0x646f6e6172; 0x646f7261646f; 0x646f726d6972; 0x646f72736f; 0x646f73; 0x646f736973; 0x647261676fcc816e;
  0x64726f6761; 0x6475636861; 0x64756461; 0x6475656c6f; 0x6475656ecc836f; 0x64756c6365; 0x6475cc816f; 0x6475717565;
  0x6475726172; 0x647572657a61; 0x6475726f; 0x65cc8162616e6f; 0x656272696f; 0x6563686172; 0x65636f; 0x65637561646f72;
  0x65646164; 0x65646963696fcc816e; 0x656469666963696f; 0x656469746f72; 0x656475636172; 0x65666563746f; 0x65666963617a; 0x656a65;
  0x656a656d706c6f; 0x656c6566616e7465; 0x656c65676972; 0x656c656d656e746f; 0x656c65766172; 0x656c69707365; 0x65cc816c697465; 0x656c69786972;
  0x656c6f67696f; 0x656c75646972; 0x656d6275646f; 0x656d69746972; 0x656d6f63696fcc816e; 0x656d70617465; 0x656d70656ecc836f; 0x656d706c656f;
  0x656d7072657361; 0x656e616e6f; 0x656e636172676f; 0x656e6368756665; 0x656e6369cc8161; 0x656e656d69676f; 0x656e65726f; 0x656e6661646f;
  0x656e6665726d6f; 0x656e67616ecc836f; 0x656e69676d61; 0x656e6c616365; 0x656e6f726d65; 0x656e7265646f; 0x656e7361796f; 0x656e73656ecc836172;
  0x656e7465726f; 0x656e74726172; 0x656e76617365; 0x656e7669cc816f; 0x65cc81706f6361; 0x65717569706f; 0x6572697a6f; 0x657363616c61;
  0x657363656e61; 0x6573636f6c6172; 0x6573637269626972; 0x65736375646f; 0x6573656e636961; 0x657366657261; 0x6573667565727a6f; 0x657370616461;
  0x657370656a6f; 0x65737069cc8161; 0x6573706f7361; 0x657370756d61; 0x6573717569cc81; 0x6573746172; 0x65737465; 0x657374696c6f;
  0x657374756661; 0x6574617061; 0x657465726e6f; 0x65cc8174696361; 0x65746e6961; 0x657661646972; 0x6576616c756172; 0x6576656e746f;
  0x657669746172; 0x65786163746f; 0x6578616d656e; 0x65786365736f; 0x657863757361; 0x6578656e746f; 0x657869676972; 0x6578696c696f;
  0x65786973746972; 0x65cc817869746f; 0x6578706572746f; 0x6578706c69636172; 0x6578706f6e6572; 0x65787472656d6f; 0x6661cc816272696361; 0x6661cc8162756c61;
  0x66616368616461; 0x6661cc8163696c; 0x666163746f72; 0x6661656e61; 0x66616a61; 0x66616c6461; 0x66616c6c6f; 0x66616c736f;
  0x66616c746172; 0x66616d61; 0x66616d696c6961; 0x66616d6f736f; 0x666172616fcc816e; 0x6661726d61636961; 0x6661726f6c; 0x6661727361;
  0x66617365; 0x666174696761; 0x6661756e61; 0x6661766f72; 0x666178; 0x6665627265726f; 0x6665636861; 0x66656c697a;
  0x66656f; 0x6665726961; 0x6665726f7a; 0x6665cc817274696c; 0x666572766f72; 0x6665737469cc816e; 0x666961626c65; 0x6669616e7a61;
  0x66696172; 0x6669627261; 0x66696363696fcc816e; 0x6669636861; 0x666964656f; 0x666965627265; 0x6669656c; 0x6669657261;
  0x666965737461; 0x666967757261; 0x66696a6172; 0x66696a6f; 0x66696c61; 0x66696c657465; 0x66696c69616c; 0x66696c74726f;
  0x66696e; 0x66696e6361; 0x66696e676972; 0x66696e69746f; 0x6669726d61; 0x666c61636f; 0x666c61757461; 0x666c65636861;
  0x666c6f72; 0x666c6f7461; 0x666c756972; 0x666c756a6f; 0x666c75cc816f72; 0x666f626961; 0x666f6361; 0x666f67617461;
  0x666f676fcc816e; 0x666f6c696f; 0x666f6c6c65746f; 0x666f6e646f; 0x666f726d61; 0x666f72726f; 0x666f7274756e61; 0x666f727a6172;
  0x666f7361; 0x666f746f; 0x6672616361736f; 0x667261cc8167696c; 0x6672616e6a61; 0x6672617365; 0x667261756465; 0x66726569cc8172;
  0x6672656e6f; 0x6672657361; 0x667269cc816f; 0x667269746f; 0x6672757461; 0x667565676f; 0x6675656e7465; 0x667565727a61;
  0x66756761; 0x66756d6172; 0x66756e63696fcc816e; 0x66756e6461; 0x667572676fcc816e; 0x6675726961; 0x667573696c; 0x6675cc8174626f6c;
  0x66757475726f; 0x676163656c61; 0x6761666173; 0x6761697461; 0x67616a6f; 0x67616c61; 0x67616c657269cc8161; 0x67616c6c6f;
  0x67616d6261; 0x67616e6172; 0x67616e63686f; 0x67616e6761; 0x67616e736f; 0x676172616a65; 0x6761727a61; 0x6761736f6c696e61;
  0x676173746172; 0x6761746f; 0x676176696c61cc816e; 0x67656d656c6f; 0x67656d6972; 0x67656e; 0x6765cc816e65726f; 0x67656e696f;
  0x67656e7465; 0x676572616e696f; 0x676572656e7465; 0x6765726d656e; 0x676573746f; 0x676967616e7465; 0x67696d6e6173696f; 0x6769726172;
  0x6769726f; 0x676c6163696172; 0x676c6f626f; 0x676c6f726961; 0x676f6c; 0x676f6c666f; 0x676f6c6f736f; 0x676f6c7065;
  0x676f6d61; 0x676f72646f; 0x676f72696c61; 0x676f727261; 0x676f7461; 0x676f74656f; 0x676f7a6172; 0x6772616461;
  0x677261cc816669636f; 0x6772616e6f; 0x6772617361; 0x677261746973; 0x6772617665; 0x677269657461; 0x6772696c6c6f; 0x6772697065;
  0x67726973; 0x677269746f; 0x67726f736f72; 0x677275cc8161; 0x67727565736f; 0x6772756d6f; 0x677275706f; 0x6775616e7465;
  0x677561706f; 0x67756172646961; 0x677565727261; 0x677569cc8161; 0x6775696ecc836f; 0x6775696f6e; 0x677569736f; 0x6775697461727261;
  0x677573616e6f; 0x677573746172; 0x6861626572; 0x6861cc8162696c; 0x6861626c6172; 0x6861636572; 0x6861636861; 0x68616461;
  0x68616c6c6172; 0x68616d616361; 0x686172696e61; 0x68617a; 0x68617a616ecc8361; 0x686562696c6c61; 0x6865627261; 0x686563686f;
  0x68656c61646f; 0x68656c696f; 0x68656d627261; 0x6865726972; 0x6865726d616e6f; 0x6865cc81726f65; 0x686572766972; 0x6869656c6f;
  0x68696572726f; 0x6869cc816761646f; 0x68696769656e65; 0x68696a6f; 0x68696d6e6f; 0x686973746f726961; 0x686f6369636f; 0x686f676172;
  0x686f6775657261; 0x686f6a61; 0x686f6d627265; 0x686f6e676f; 0x686f6e6f72; 0x686f6e7261; 0x686f7261; 0x686f726d696761;
  0x686f726e6f; 0x686f7374696c; 0x686f796f; 0x687565636f; 0x6875656c6761; 0x687565727461; 0x687565736f; 0x687565766f;
  0x6875696461; 0x68756972; 0x68756d616e6f; 0x6875cc816d65646f; 0x68756d696c6465; 0x68756d6f; 0x68756e646972; 0x687572616361cc816e;
  0x687572746f; 0x69636f6e6f; 0x696465616c; 0x6964696f6d61; 0x69cc81646f6c6f; 0x69676c65736961; 0x69676c75cc81; 0x696775616c;
  0x696c6567616c; 0x696c7573696fcc816e; 0x696d6167656e; 0x696d61cc816e; 0x696d69746172; 0x696d706172; 0x696d706572696f; 0x696d706f6e6572;
  0x696d70756c736f; 0x696e636170617a; 0x69cc816e64696365; 0x696e65727465; 0x696e6669656c; 0x696e666f726d65; 0x696e67656e696f; 0x696e6963696f;
  0x696e6d656e736f; 0x696e6d756e65; 0x696e6e61746f; 0x696e736563746f; 0x696e7374616e7465; 0x696e74657265cc8173; 0x69cc816e74696d6f; 0x696e74756972;
  0x696e75cc8174696c; 0x696e766965726e6f; 0x697261; 0x69726973; 0x69726f6e69cc8161; 0x69736c61; 0x69736c6f7465; 0x6a6162616c69cc81;
  0x6a61626fcc816e; 0x6a616d6fcc816e; 0x6a6172616265; 0x6a61726469cc816e; 0x6a61727261; 0x6a61756c61; 0x6a617a6d69cc816e; 0x6a656665;
  0x6a6572696e6761; 0x6a696e657465; 0x6a6f726e616461; 0x6a6f726f6261; 0x6a6f76656e; 0x6a6f7961; 0x6a7565726761; 0x6a7565766573;
  0x6a75657a; 0x6a756761646f72; 0x6a75676f; 0x6a756775657465; 0x6a756963696f; 0x6a756e636f; 0x6a756e676c61; 0x6a756e696f;
  0x6a756e746172; 0x6a75cc817069746572; 0x6a75726172; 0x6a7573746f; 0x6a7576656e696c; 0x6a757a676172; 0x6b696c6f; 0x6b6f616c61;
  0x6c6162696f; 0x6c6163696f; 0x6c61637261; 0x6c61646f; 0x6c6164726fcc816e; 0x6c61676172746f; 0x6c61cc816772696d61; 0x6c6167756e61;
  0x6c6169636f; 0x6c616d6572; 0x6c61cc816d696e61; 0x6c61cc816d70617261; 0x6c616e61; 0x6c616e636861; 0x6c616e676f737461; 0x6c616e7a61;
  0x6c61cc8170697a; 0x6c6172676f; 0x6c61727661; 0x6c61cc817374696d61; 0x6c617461; 0x6c61cc81746578; 0x6c61746972; 0x6c617572656c;
  0x6c61766172; 0x6c617a6f; 0x6c65616c; 0x6c656363696fcc816e; 0x6c65636865; 0x6c6563746f72; 0x6c656572; 0x6c6567696fcc816e;
  0x6c6567756d627265; 0x6c656a616e6f; 0x6c656e677561; 0x6c656e746f; 0x6c656ecc8361; 0x6c656fcc816e; 0x6c656f706172646f; 0x6c6573696fcc816e;
  0x6c6574616c; 0x6c65747261; 0x6c657665; 0x6c6579656e6461; 0x6c69626572746164; 0x6c6962726f; 0x6c69636f72; 0x6c69cc81646572;
  0x6c6964696172; 0x6c69656e7a6f; 0x6c696761; 0x6c696765726f; 0x6c696d61; 0x6c69cc816d697465; 0x6c696d6fcc816e; 0x6c696d70696f;
  0x6c696e6365; 0x6c696e646f; 0x6c69cc816e6561; 0x6c696e676f7465; 0x6c696e6f; 0x6c696e7465726e61; 0x6c69cc81717569646f; 0x6c69736f;
  0x6c69737461; 0x6c6974657261; 0x6c6974696f; 0x6c6974726f; 0x6c6c616761; 0x6c6c616d61; 0x6c6c616e746f; 0x6c6c617665;
  0x6c6c65676172; 0x6c6c656e6172; 0x6c6c65766172; 0x6c6c6f726172; 0x6c6c6f766572; 0x6c6c75766961; 0x6c6f626f; 0x6c6f63696fcc816e;
  0x6c6f636f; 0x6c6f63757261; 0x6c6fcc8167696361; 0x6c6f67726f; 0x6c6f6d6272697a; 0x6c6f6d6f; 0x6c6f6e6a61; 0x6c6f7465;
  0x6c75636861; 0x6c75636972; 0x6c75676172; 0x6c756a6f; 0x6c756e61; 0x6c756e6573; 0x6c757061; 0x6c757374726f;
  0x6c75746f; 0x6c757a; 0x6d6163657461; 0x6d6163686f; 0x6d6164657261; 0x6d61647265; 0x6d616475726f; 0x6d61657374726f;
  0x6d61666961; 0x6d61676961; 0x6d61676f; 0x6d6169cc817a; 0x6d616c646164; 0x6d616c657461; 0x6d616c6c61; 0x6d616c6f;
  0x6d616d61cc81; 0x6d616d626f; 0x6d616d7574; 0x6d616e636f; 0x6d616e646f; 0x6d616e656a6172; 0x6d616e6761; 0x6d616e69717569cc81;
  0x6d616e6a6172; 0x6d616e6f; 0x6d616e736f; 0x6d616e7461; 0x6d616ecc83616e61; 0x6d617061; 0x6d61cc817175696e61; 0x6d6172;
  0x6d6172636f; 0x6d61726561; 0x6d617266696c; 0x6d617267656e; 0x6d617269646f; 0x6d61cc81726d6f6c; 0x6d6172726fcc816e; 0x6d6172746573;
  0x6d61727a6f; 0x6d617361; 0x6d61cc817363617261; 0x6d617369766f; 0x6d61746172; 0x6d617465726961; 0x6d6174697a; 0x6d617472697a;
  0x6d61cc8178696d6f; 0x6d61796f72; 0x6d617a6f726361; 0x6d65636861; 0x6d6564616c6c61; 0x6d6564696f; 0x6d65cc8164756c61; 0x6d656a696c6c61;
  0x6d656a6f72; 0x6d656c656e61; 0x6d656c6fcc816e; 0x6d656d6f726961; 0x6d656e6f72; 0x6d656e73616a65; 0x6d656e7465; 0x6d656e75cc81;
  0x6d65726361646f; 0x6d6572656e677565; 0x6d65cc817269746f; 0x6d6573; 0x6d65736fcc816e; 0x6d657461; 0x6d65746572; 0x6d65cc81746f646f;
  0x6d6574726f; 0x6d657a636c61; 0x6d6965646f; 0x6d69656c; 0x6d69656d62726f; 0x6d696761; 0x6d696c; 0x6d696c6167726f;
  0x6d696c69746172; 0x6d696c6c6fcc816e; 0x6d696d6f; 0x6d696e61; 0x6d696e65726f; 0x6d69cc816e696d6f; 0x6d696e75746f; 0x6d696f7065;
  0x6d69726172; 0x6d697361; 0x6d697365726961; 0x6d6973696c; 0x6d69736d6f; 0x6d69746164; 0x6d69746f; 0x6d6f6368696c61;
  0x6d6f63696fcc816e; 0x6d6f6461; 0x6d6f64656c6f; 0x6d6f686f; 0x6d6f6a6172; 0x6d6f6c6465; 0x6d6f6c6572; 0x6d6f6c696e6f;
  0x6d6f6d656e746f; 0x6d6f6d6961; 0x6d6f6e61726361; 0x6d6f6e656461; 0x6d6f6e6a61; 0x6d6f6e746f; 0x6d6f6ecc836f; 0x6d6f72616461;
  0x6d6f72646572; 0x6d6f72656e6f; 0x6d6f726972; 0x6d6f72726f; 0x6d6f727361; 0x6d6f7274616c; 0x6d6f736361; 0x6d6f7374726172;
  0x6d6f7469766f; 0x6d6f766572; 0x6d6fcc8176696c; 0x6d6f7a6f; 0x6d7563686f; 0x6d75646172; 0x6d7565626c65; 0x6d75656c61;
  0x6d7565727465; 0x6d756573747261; 0x6d75677265; 0x6d756a6572; 0x6d756c61; 0x6d756c657461; 0x6d756c7461; 0x6d756e646f;
  0x6d756ecc83656361; 0x6d7572616c; 0x6d75726f; 0x6d75cc817363756c6f; 0x6d7573656f; 0x6d7573676f; 0x6d75cc8173696361; 0x6d75736c6f;
  0x6e61cc81636172; 0x6e6163696fcc816e; 0x6e61646172; 0x6e61697065; 0x6e6172616e6a61; 0x6e6172697a; 0x6e6172726172; 0x6e6173616c;
  0x6e6174616c; 0x6e617469766f; 0x6e61747572616c; 0x6e61cc8175736561; 0x6e6176616c; 0x6e617665; 0x6e617669646164; 0x6e6563696f;
  0x6e65cc8163746172; 0x6e65676172; 0x6e65676f63696f; 0x6e6567726f; 0x6e656fcc816e; 0x6e657276696f; 0x6e65746f; 0x6e657574726f;
  0x6e65766172; 0x6e6576657261; 0x6e6963686f; 0x6e69646f; 0x6e6965626c61; 0x6e6965746f; 0x6e696ecc83657a; 0x6e696ecc836f;
  0x6e69cc817469646f; 0x6e6976656c; 0x6e6f626c657a61; 0x6e6f636865; 0x6e6fcc816d696e61; 0x6e6f726961; 0x6e6f726d61; 0x6e6f727465;
  0x6e6f7461; 0x6e6f7469636961; 0x6e6f7661746f; 0x6e6f76656c61; 0x6e6f76696f; 0x6e756265; 0x6e756361; 0x6e75cc81636c656f;
  0x6e7564696c6c6f; 0x6e75646f; 0x6e75657261; 0x6e75657665; 0x6e75657a; 0x6e756c6f; 0x6e75cc816d65726f; 0x6e7574726961;
  0x6f61736973; 0x6f6265736f; 0x6f626973706f; 0x6f626a65746f; 0x6f627261; 0x6f627265726f; 0x6f62736572766172; 0x6f6274656e6572;
  0x6f6276696f; 0x6f6361; 0x6f6361736f; 0x6f6365cc81616e6f; 0x6f6368656e7461; 0x6f63686f; 0x6f63696f; 0x6f637265;
  0x6f637461766f; 0x6f637475627265; 0x6f63756c746f; 0x6f6375706172; 0x6f637572726972; 0x6f64696172; 0x6f64696f; 0x6f6469736561;
  0x6f65737465; 0x6f66656e7361; 0x6f6665727461; 0x6f666963696f; 0x6f667265636572; 0x6f67726f; 0x6f69cc81646f; 0x6f69cc8172;
  0x6f6a6f; 0x6f6c61; 0x6f6c65616461; 0x6f6c6661746f; 0x6f6c69766f; 0x6f6c6c61; 0x6f6c6d6f; 0x6f6c6f72;
  0x6f6c7669646f; 0x6f6d626c69676f; 0x6f6e6461; 0x6f6e7a61; 0x6f7061636f; 0x6f7063696fcc816e; 0x6fcc8170657261; 0x6f70696e6172;
  0x6f706f6e6572; 0x6f70746172; 0x6fcc817074696361; 0x6f70756573746f; 0x6f726163696fcc816e; 0x6f7261646f72; 0x6f72616c; 0x6fcc817262697461;
  0x6f726361; 0x6f7264656e; 0x6f72656a61; 0x6fcc817267616e6f; 0x6f726769cc8161; 0x6f7267756c6c6f; 0x6f7269656e7465; 0x6f726967656e;
  0x6f72696c6c61; 0x6f726f; 0x6f72717565737461; 0x6f72756761; 0x6f73616469cc8161; 0x6f736375726f; 0x6f73657a6e6f; 0x6f736f;
  0x6f73747261; 0x6f746f6ecc836f; 0x6f74726f; 0x6f76656a61; 0x6fcc8176756c6f; 0x6fcc817869646f; 0x6f7869cc8167656e6f; 0x6f79656e7465;
  0x6f7a6f6e6f; 0x706163746f; 0x7061647265; 0x7061656c6c61; 0x7061cc8167696e61; 0x7061676f; 0x706169cc8173; 0x7061cc816a61726f;
  0x70616c61627261; 0x70616c636f; 0x70616c657461; 0x7061cc816c69646f; 0x70616c6d61; 0x70616c6f6d61; 0x70616c706172; 0x70616e;
  0x70616e616c; 0x7061cc816e69636f; 0x70616e74657261; 0x70616ecc8375656c6f; 0x70617061cc81; 0x706170656c; 0x706170696c6c61; 0x70617175657465;
  0x7061726172; 0x70617263656c61; 0x7061726564; 0x7061726972; 0x7061726f; 0x7061cc81727061646f; 0x706172717565; 0x7061cc81727261666f;
  0x7061727465; 0x7061736172; 0x706173656f; 0x706173696fcc816e; 0x7061736f; 0x7061737461; 0x70617461; 0x706174696f;
  0x706174726961; 0x7061757361; 0x7061757461; 0x7061766f; 0x70617961736f; 0x706561746fcc816e; 0x70656361646f; 0x706563657261;
  0x706563686f; 0x706564616c; 0x7065646972; 0x7065676172; 0x7065696e65; 0x70656c6172; 0x70656c64616ecc836f; 0x70656c6561;
  0x70656c6967726f; 0x70656c6c656a6f; 0x70656c6f; 0x70656c756361; 0x70656e61; 0x70656e736172; 0x70656ecc836fcc816e; 0x70656fcc816e;
  0x70656f72; 0x706570696e6f; 0x70657175656ecc836f; 0x70657261; 0x706572636861; 0x706572646572; 0x706572657a61; 0x70657266696c;
  0x70657269636f; 0x7065726c61; 0x7065726d69736f; 0x706572726f; 0x706572736f6e61; 0x70657361; 0x7065736361; 0x7065cc8173696d6f;
  0x70657374616ecc8361; 0x7065cc8174616c6f; 0x706574726fcc816c656f; 0x70657a; 0x70657a756ecc8361; 0x7069636172; 0x706963686fcc816e; 0x706965;
  0x706965647261; 0x706965726e61; 0x7069657a61; 0x70696a616d61; 0x70696c6172; 0x70696c6f746f; 0x70696d69656e7461; 0x70696e6f;
  0x70696e746f72; 0x70696e7a61; 0x70696ecc8361; 0x70696f6a6f; 0x70697061; 0x706972617461; 0x7069736172; 0x70697363696e61;
  0x7069736f; 0x7069737461; 0x7069746fcc816e; 0x70697a6361; 0x706c616361; 0x706c616e; 0x706c617461; 0x706c617961;
  0x706c617a61; 0x706c6569746f; 0x706c656e6f; 0x706c6f6d6f; 0x706c756d61; 0x706c7572616c; 0x706f627265; 0x706f636f;
  0x706f646572; 0x706f64696f; 0x706f656d61; 0x706f657369cc8161; 0x706f657461; 0x706f6c656e; 0x706f6c696369cc8161; 0x706f6c6c6f;
  0x706f6c766f; 0x706f6d616461; 0x706f6d656c6f; 0x706f6d6f; 0x706f6d7061; 0x706f6e6572; 0x706f7263696fcc816e; 0x706f7274616c;
  0x706f73616461; 0x706f73656572; 0x706f7369626c65; 0x706f737465; 0x706f74656e636961; 0x706f74726f; 0x706f7a6f; 0x707261646f;
  0x707265636f7a; 0x70726567756e7461; 0x7072656d696f; 0x7072656e7361; 0x707265736f; 0x70726576696f; 0x7072696d6f; 0x707269cc816e63697065;
  0x70726973696fcc816e; 0x707269766172; 0x70726f61; 0x70726f626172; 0x70726f6365736f; 0x70726f647563746f; 0x70726f657a61; 0x70726f6665736f72;
  0x70726f6772616d61; 0x70726f6c65; 0x70726f6d657361; 0x70726f6e746f; 0x70726f70696f; 0x70726fcc8178696d6f; 0x707275656261; 0x7075cc81626c69636f;
  0x7075636865726f; 0x7075646f72; 0x707565626c6f; 0x707565727461; 0x70756573746f; 0x70756c6761; 0x70756c6972; 0x70756c6d6fcc816e;
  0x70756c706f; 0x70756c736f; 0x70756d61; 0x70756e746f; 0x70756ecc83616c; 0x70756ecc836f; 0x70757061; 0x707570696c61;
  0x70757265cc81; 0x717565646172; 0x7175656a61; 0x7175656d6172; 0x717565726572; 0x717565736f; 0x71756965746f; 0x717569cc816d696361;
  0x7175696e6365; 0x717569746172; 0x7261cc8162616e6f; 0x7261626961; 0x7261626f; 0x726163696fcc816e; 0x7261646963616c; 0x726169cc817a;
  0x72616d61; 0x72616d7061; 0x72616e63686f; 0x72616e676f; 0x726170617a; 0x7261cc817069646f; 0x726170746f; 0x726173676f;
  0x7261737061; 0x7261746f; 0x7261796f; 0x72617a61; 0x72617a6fcc816e; 0x7265616363696fcc816e; 0x7265616c69646164; 0x726562616ecc836f;
  0x7265626f7465; 0x726563616572; 0x726563657461; 0x72656368617a6f; 0x7265636f676572; 0x72656372656f; 0x726563746f; 0x7265637572736f;
  0x726564; 0x7265646f6e646f; 0x72656475636972; 0x7265666c656a6f; 0x7265666f726d61; 0x7265667261cc816e; 0x7265667567696f; 0x726567616c6f;
  0x7265676972; 0x7265676c61; 0x7265677265736f; 0x72656865cc816e; 0x7265696e6f; 0x726569cc8172; 0x72656a61; 0x72656c61746f;
  0x72656c65766f; 0x72656c69657665; 0x72656c6c656e6f; 0x72656c6f6a; 0x72656d6172; 0x72656d6564696f; 0x72656d6f; 0x72656e636f72;
  0x72656e646972; 0x72656e7461; 0x7265706172746f; 0x72657065746972; 0x7265706f736f; 0x72657074696c; 0x726573; 0x72657363617465;
  0x726573696e61; 0x7265737065746f; 0x726573746f; 0x726573756d656e; 0x72657469726f; 0x7265746f726e6f; 0x7265747261746f; 0x7265756e6972;
  0x72657665cc8173; 0x72657669737461; 0x726579; 0x72657a6172; 0x7269636f; 0x726965676f; 0x7269656e6461; 0x72696573676f;
  0x72696661; 0x7269cc816769646f; 0x7269676f72; 0x72696e636fcc816e; 0x72696ecc836fcc816e; 0x7269cc816f; 0x72697175657a61; 0x72697361;
  0x7269746d6f; 0x7269746f; 0x72697a6f; 0x726f626c65; 0x726f6365; 0x726f63696172; 0x726f646172; 0x726f64656f;
  0x726f64696c6c61; 0x726f6572; 0x726f6a697a6f; 0x726f6a6f; 0x726f6d65726f; 0x726f6d706572; 0x726f6e; 0x726f6e636f;
  0x726f6e6461; 0x726f7061; 0x726f7065726f; 0x726f7361; 0x726f736361; 0x726f7374726f; 0x726f746172; 0x72756269cc81;
  0x7275626f72; 0x7275646f; 0x7275656461; 0x7275676972; 0x727569646f; 0x7275696e61; 0x72756c657461; 0x72756c6f;
  0x72756d626f; 0x72756d6f72; 0x72757074757261; 0x72757461; 0x727574696e61; 0x7361cc816261646f; 0x7361626572; 0x736162696f;
  0x7361626c65; 0x7361636172; 0x736167617a; 0x7361677261646f; 0x73616c61; 0x73616c646f; 0x73616c65726f; 0x73616c6972;
  0x73616c6d6fcc816e; 0x73616c6fcc816e; 0x73616c7361; 0x73616c746f; 0x73616c7564; 0x73616c766172; 0x73616d6261; 0x73616e63696fcc816e;
  0x73616e6469cc8161; 0x73616e656172; 0x73616e677265; 0x73616e69646164; 0x73616e6f; 0x73616e746f; 0x7361706f; 0x7361717565;
  0x73617264696e61; 0x7361727465cc816e; 0x736173747265; 0x73617461cc816e; 0x7361756e61; 0x7361786f666fcc816e; 0x73656363696fcc816e; 0x7365636f;
  0x7365637265746f; 0x7365637461; 0x736564; 0x736567756972; 0x73656973; 0x73656c6c6f; 0x73656c7661; 0x73656d616e61;
  0x73656d696c6c61; 0x73656e6461; 0x73656e736f72; 0x73656ecc83616c; 0x73656ecc836f72; 0x73657061726172; 0x7365706961; 0x7365717569cc8161;
  0x736572; 0x7365726965; 0x7365726d6fcc816e; 0x736572766972; 0x736573656e7461; 0x736573696fcc816e; 0x73657461; 0x736574656e7461;
  0x73657665726f; 0x7365786f; 0x736578746f; 0x7369647261; 0x736965737461; 0x7369657465; 0x7369676c6f; 0x7369676e6f;
  0x7369cc816c616261; 0x73696c626172; 0x73696c656e63696f; 0x73696c6c61; 0x7369cc816d626f6c6f; 0x73696d696f; 0x736972656e61; 0x73697374656d61;
  0x736974696f; 0x736974756172; 0x736f627265; 0x736f63696f; 0x736f64696f; 0x736f6c; 0x736f6c617061; 0x736f6c6461646f;
  0x736f6c65646164; 0x736fcc816c69646f; 0x736f6c746172; 0x736f6c7563696fcc816e; 0x736f6d627261; 0x736f6e64656f; 0x736f6e69646f; 0x736f6e6f726f;
  0x736f6e72697361; 0x736f7061; 0x736f706c6172; 0x736f706f727465; 0x736f72646f; 0x736f727072657361; 0x736f7274656f; 0x736f737465cc816e;
  0x736fcc8174616e6f; 0x7375617665; 0x7375626972; 0x73756365736f; 0x7375646f72; 0x737565677261; 0x7375656c6f; 0x7375656ecc836f;
  0x737565727465; 0x737566726972; 0x73756a65746f; 0x73756c7461cc816e; 0x73756d6172; 0x73757065726172; 0x7375706c6972; 0x7375706f6e6572;
  0x73757072656d6f; 0x737572; 0x737572636f; 0x737572656ecc836f; 0x737572676972; 0x737573746f; 0x737574696c; 0x74616261636f;
  0x74616269717565; 0x7461626c61; 0x74616275cc81; 0x7461636f; 0x746163746f; 0x74616a6f; 0x74616c6172; 0x74616c636f;
  0x74616c656e746f; 0x74616c6c61; 0x74616c6fcc816e; 0x74616d616ecc836f; 0x74616d626f72; 0x74616e676f; 0x74616e717565; 0x74617061;
  0x746170657465; 0x7461706961; 0x7461706fcc816e; 0x74617175696c6c61; 0x7461726465; 0x7461726561; 0x746172696661; 0x7461726a657461;
  0x7461726f74; 0x746172726f; 0x7461727461; 0x74617475616a65; 0x746175726f; 0x74617a61; 0x74617a6fcc816e; 0x74656174726f;
  0x746563686f; 0x7465636c61; 0x7465cc81636e696361; 0x74656a61646f; 0x74656a6572; 0x74656a69646f; 0x74656c61; 0x74656c65cc81666f6e6f;
  0x74656d61; 0x74656d6f72; 0x74656d706c6f; 0x74656e617a; 0x74656e646572; 0x74656e6572; 0x74656e6973; 0x74656e736f;
  0x74656f7269cc8161; 0x74657261706961; 0x746572636f; 0x7465cc81726d696e6f; 0x7465726e757261; 0x746572726f72; 0x7465736973; 0x7465736f726f;
  0x7465737469676f; 0x746574657261; 0x746578746f; 0x74657a; 0x746962696f; 0x74696275726fcc816e; 0x7469656d706f; 0x7469656e6461;
  0x746965727261; 0x746965736f; 0x7469677265; 0x74696a657261; 0x74696c6465; 0x74696d627265; 0x7469cc816d69646f; 0x74696d6f;
  0x74696e7461; 0x7469cc816f; 0x7469cc817069636f; 0x7469706f; 0x74697261; 0x7469726fcc816e; 0x74697461cc816e; 0x7469cc8174657265;
  0x7469cc8174756c6f; 0x74697a61; 0x746f616c6c61; 0x746f62696c6c6f; 0x746f636172; 0x746f63696e6f; 0x746f646f; 0x746f6761;
  0x746f6c646f; 0x746f6d6172; 0x746f6e6f; 0x746f6e746f; 0x746f706172; 0x746f7065; 0x746f717565; 0x746fcc81726178;
  0x746f7265726f; 0x746f726d656e7461; 0x746f726e656f; 0x746f726f; 0x746f727065646f; 0x746f727265; 0x746f72736f; 0x746f7274756761;
  0x746f73; 0x746f73636f; 0x746f736572; 0x746fcc817869636f; 0x74726162616a6f; 0x74726163746f72; 0x7472616572; 0x747261cc816669636f;
  0x747261676f; 0x7472616a65; 0x7472616d6f; 0x7472616e6365; 0x747261746f; 0x747261756d61; 0x7472617a6172; 0x747265cc81626f6c;
  0x747265677561; 0x747265696e7461; 0x7472656e; 0x747265706172; 0x74726573; 0x7472696275; 0x747269676f; 0x7472697061;
  0x747269737465; 0x747269756e666f; 0x74726f66656f; 0x74726f6d7061; 0x74726f6e636f; 0x74726f7061; 0x74726f7465; 0x74726f7a6f;
  0x747275636f; 0x747275656e6f; 0x7472756661; 0x747562657269cc8161; 0x7475626f; 0x74756572746f; 0x74756d6261; 0x74756d6f72;
  0x7475cc816e656c; 0x7475cc816e696361; 0x74757262696e61; 0x74757269736d6f; 0x7475726e6f; 0x7475746f72; 0x756269636172; 0x75cc816c63657261;
  0x756d6272616c; 0x756e69646164; 0x756e6972; 0x756e69766572736f; 0x756e6f; 0x756e746172; 0x756ecc8361; 0x757262616e6f;
  0x75726265; 0x757267656e7465; 0x75726e61; 0x75736172; 0x7573756172696f; 0x75cc8174696c; 0x75746f7069cc8161; 0x757661;
  0x76616361; 0x76616369cc816f; 0x766163756e61; 0x7661676172; 0x7661676f; 0x7661696e61; 0x76616a696c6c61; 0x76616c65;
  0x7661cc816c69646f; 0x76616c6c65; 0x76616c6f72; 0x7661cc816c76756c61; 0x76616d7069726f; 0x76617261; 0x766172696172; 0x7661726fcc816e;
  0x7661736f; 0x766563696e6f; 0x766563746f72; 0x76656869cc8163756c6f; 0x7665696e7465; 0x76656a657a; 0x76656c61; 0x76656c65726f;
  0x76656c6f7a; 0x76656e61; 0x76656e636572; 0x76656e6461; 0x76656e656e6f; 0x76656e676172; 0x76656e6972; 0x76656e7461;
  0x76656e7573; 0x766572; 0x766572616e6f; 0x766572626f; 0x7665726465; 0x766572656461; 0x7665726a61; 0x766572736f;
  0x766572746572; 0x7669cc8161; 0x7669616a65; 0x766962726172; 0x766963696f; 0x7669cc816374696d61; 0x76696461; 0x7669cc8164656f;
  0x76696472696f; 0x7669656a6f; 0x766965726e6573; 0x7669676f72; 0x76696c; 0x76696c6c61; 0x76696e61677265; 0x76696e6f;
  0x76696ecc8365646f; 0x76696f6c69cc816e; 0x766972616c; 0x766972676f; 0x766972747564; 0x7669736f72; 0x7669cc817370657261; 0x7669737461;
  0x766974616d696e61; 0x766975646f; 0x766976617a; 0x76697665726f; 0x7669766972; 0x7669766f; 0x766f6c6361cc816e; 0x766f6c756d656e;
  0x766f6c766572; 0x766f72617a; 0x766f746172; 0x766f746f; 0x766f7a; 0x7675656c6f; 0x76756c676172; 0x7961636572;
  0x79617465; 0x7965677561; 0x79656d61; 0x7965726e6f; 0x7965736f; 0x796f646f; 0x796f6761; 0x796f677572;
  0x7a616669726f; 0x7a616e6a61; 0x7a617061746f; 0x7a61727a61; 0x7a6f6e61; 0x7a6f72726f; 0x7a756d6f; 0x7a7572646f].
