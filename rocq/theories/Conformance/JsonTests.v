(** Tests of the JSON forms (/repo/protocol/test-serialization/src/json.rs) run
    on the model, with fixtures of /repo/protocol/test-fixtures/src/data.

    [json_77748] is mainnet-77748-3NKaBJ...json and [block_77748_bytes] is
    3NKaBJ...hex, the same block as the network sends it.  [state_113267] is the
    protocol state of mainnet-113267-3NKtqq...json.  The files that the parity
    test of lines 20-37 names are not in the repository; the pair above is. *)
From Coq Require Import String ZArith List Bool.
From Verif Require Import Lib.Res Lib.Bytes BinProt.Codec Wire.Types Text.Hex Text.Checksum Lib.Sha256 Json.Json Json.JsonTypes Json.JsonProps
  Convert.Conv Convert.BlockConv Convert.View Hashing.State.
Import ListNotations.
Local Open Scope string_scope.
Local Open Scope list_scope.
Local Open Scope Z_scope.
(** Objects and texts *)
Definition Obj (m : list (string * json)) : json := JObj (map (fun p => (str_bytes (fst p), snd p)) m).
Definition T (s : string) : json := JStr (str_bytes s).

Definition json_77748 : json :=
  Obj [("scheduled_time", T "1636092972780");
   ("protocol_state", Obj [("previous_state_hash", T "3NKDdX6eVtAgmmTVxaFLnnPPrsGKgVepG2k5cf8HocgSw6ps8Sww");
    ("body", Obj [("genesis_state_hash", T "3NKeMoncuHab5ScarV5ViyF16cJPT4taWNSaTLS64Dp67wuXigPZ");
     ("blockchain_state", Obj [("staged_ledger_hash", Obj [("non_snark", Obj [("ledger_hash", T "jwD5Kx1GtLKJGSWufhkvCn8m7EFLm2LmAM7neyzLtTiN8wyn2po");
        ("aux_hash", T "UworXDykADr3Lte856ePMsdawpTVhKLKT9Y3UKha7Tpbt4V1JP");
        ("pending_coinbase_aux", T "XbwfEKZjgcZiyDhHRZjHUx72TuxpnuzLPwVYpVWkMAAXkSy7go")]);
       ("pending_coinbase_hash", T "2mzpdUi5ddLicLGUns4iYFiNahL5B5cPkTUot83v2moNtr4mzRYf")]);
      ("snarked_ledger_hash", T "jxkQm8ge9sYPwPyUYUMZ6wr7SQ6Pit5szbRvPmEzYKQQZAnACyC");
      ("genesis_ledger_hash", T "jx7buQVWFLsXTtzRgSxbYcT8EYLS8KCZbLrfDcJxMtyy4thw2Ee");
      ("snarked_next_available_token", T "2");
      ("timestamp", T "1636092900000")]);
     ("consensus_state", Obj [("blockchain_length", T "77748");
      ("epoch_count", T "15");
      ("min_window_density", T "33");
      ("sub_window_densities", JArr [T "6";
       T "1";
       T "3";
       T "5";
       T "4";
       T "3";
       T "5";
       T "7";
       T "4";
       T "5";
       T "6"]);
      ("last_vrf_output", T "WNAmmaRL7XzyhZHiz276MbnBv4YUIJRGf9P_Xu0RBAA=");
      ("total_currency", T "867667132840039233");
      ("curr_global_slot", Obj [("slot_number", T "111965");
       ("slots_per_epoch", T "7140")]);
      ("global_slot_since_genesis", T "111965");
      ("staking_epoch_data", Obj [("ledger", Obj [("hash", T "jxn15ATGoe4WGgYpbssxJH9XW8NXRDy22WvSsBqvMqcnLPgPAwN");
        ("total_currency", T "861208012840039233")]);
       ("seed", T "2vao4i3odTHZVRbEhdkKvLoD1rW2UuiVaayVFosYtkghABg29o7i");
       ("start_checkpoint", T "3NLM6x7j2Z68e8gGspyvc1aU884uU6yWkwz9aW127BFckn9b5uvo");
       ("lock_checkpoint", T "3NLiFhztdCsuWSociNGMspidiYkyqNKZw6ufH7jqbgQtEgGtBb2P");
       ("epoch_length", T "4697")]);
      ("next_epoch_data", Obj [("ledger", Obj [("hash", T "jwAXd4GZgxE3YCwqs99g4MpLNiEV2ZfZPstyah4jxo753AVgL6R");
        ("total_currency", T "864998092840039233")]);
       ("seed", T "2vbUkQGF5swXK7PNaAJDUQirW1fbZiUJDzbBKwfPGdJXZiryburD");
       ("start_checkpoint", T "3NLkdXKqoHfwZ5jT1uxSY3eoFy3C2jpAUFZ1Y6eSMsE66MNJqErx");
       ("lock_checkpoint", T "3NLW5kBi9nXDzzdr2C3p9X6QaKaASMaVHp3otwreKXKJToUNK7yu");
       ("epoch_length", T "3285")]);
      ("has_ancestor_in_same_checkpoint_window", JBool true);
      ("block_stake_winner", T "B62qmsYXFNNE565yv7bEMPsPnpRCsMErf7J2v5jMnuKQ1jgwZS8BzXS");
      ("block_creator", T "B62qpge4uMq4Vv5Rvc8Gw9qSquUYd6xoW1pz7HQkMSHm6h1o7pvLPAN");
      ("coinbase_receiver", T "B62qk9WYHu2PBYv4EyEubnVQURcwpiV2ysuYYoMdwi8YTnwZQ7H4bLM");
      ("supercharge_coinbase", JBool false)]);
     ("constants", Obj [("k", T "290");
      ("slots_per_epoch", T "7140");
      ("slots_per_sub_window", T "7");
      ("delta", T "0");
      ("genesis_state_timestamp", T "1615939200000")])])]);
   ("protocol_state_proof", JStr (List.concat [str_bytes "AQEBAQEBAQEBAQABAfyCZ8XD4he3QAH80HIgGfAezhgAAQH8k9ybHSm_cswB_JQesWKV8mPiAAEB_CFDKDlOgTyvAfxQGTylbUUpgAABAAEB_IlOihwF_6cPAfy8HOdGfm3muwABACNq3aIW99rvmP";
   str_bytes "ThUJOt7sTCDHKGhd14jtt6WT6kuFYzAQCn9Tpe5H8iu4eCAUs2O4jrZQzs6DrhpxGQc6AzAkteOQEAAQH8xQZ4fhDIOj4B_F6Fr8O5CTsMAAEBAQEAAQH8Qm91cFzlxuYB_Cz4ZjYnTwVyAAEBAAEB";
   str_bytes "_OZAKPtMoib5AfzQLLCTKmHongABAQABAfyG02v2I-l6jAH8iEeTiKBbKjkAAQEAAQH84lhBVf2xpzEB_BHUmoZUZqv_AAEBAAEB_OFYodLGFJH-AfzMLIm8ErnpVAABAQABAfxMGNX65P-rNgH8Me";
   str_bytes "XQ9yLbruwAAQEAAQH8-fFQ7ZTD2TwB_EPopZeAO7DyAAEBAAEB_AVFodFdv3riAfxCkBzGujjAjgABAQABAfyFmgu3zzh_iwH8a-3QksBFIDoAAQEAAQH8EyV9kj2hjxgB_Cjq1rVlPnA2AAEBAAEB";
   str_bytes "_DFjvfxSXfMNAfwQ03vM-qWnKgABAQABAfw9u8uYpRjVGwH8auCvoVqVrO4AAQEAAQH8_4zOksnfvWkB_H0-zs3vUPLwAAEBAAEB_Np8pO8v4SKuAfw9_QTgxhgP6QABAQABAfxOPTWunUVTRAH8IJ";
   str_bytes "wLvYO0jRoAAQEAAQH8NWq1qzPRU3IB_M1l0lZM_zlnAAEBAAEB_J2IofKS20MhAfyT6M0RL_FNXwABAQABAfzc3NisCDJ9cAH8mHqRgVdvGJ8AAAEAAQEB_Oc4nCuNu3lxAfyS4L6rm1VgHAH8Fi1A";
   str_bytes "kXr5xRwB_H-LBb1N9VI7AAGVHNYP3HXWMiP5EYHwdZSahxjzCaid3EcbBzc1l2mSIFiwoLM6mA3b-sLAjDM00_Mv1kn8JdKSBz7XFUBdx9wFAQEBAQEBAAEB_H_cKwozftw5AfxzlUcCknjPGgABAQ";
   str_bytes "ABAfyHYkiXOVf-rAH8wIdrKUAWuH4AAQEAAQH8yiZH-pNlO5QB_EkFjtbxE2TbAAEBAAEB_Ob-bwZ88i3EAfyyVmk5Zf4CbAABAQABAfwz3DYG5_0-ygH8FxZPvQICA64AAQEAAQH8cbO-YveQxEEB";
   str_bytes "_E41RZxRqpJlAAEBAAEB_Oo1cWmj6IExAfwkIdFslaKGqAABAQABAfxKgrUH7qwW9QH8uHoxdQDJBAMAAQEAAQH8LW1TBwUeAfgB_BOTZGJKRlWrAAEBAAEB_OJQNmjd_rBbAfwX_tnoJBlnZAABAQ";
   str_bytes "ABAfzR__6qjUF5QQH82cvkkjXbCtsAAQEAAQH86Fufzsl-WBsB_Niuie-SE0TFAAEBAAEB_ARddbjD5m0TAfyrzYXQSzCS-QABAQABAfyUxo3LqdBbmAH8lwAIZXaO4B8AAQEAAQH8ERPxGwUJEQAB";
   str_bytes "_AYX7pGEDNoxAAEBAAEB_Gn4iXcgSl-uAfzthAXwXkQ10QABAQABAfzPbCxIxDk6WgH8EdD4I5p-FrIAAAEBAQEBAAEB_PRiou0KbJASAfwzYzmUKFHRKgABAQABAfz3c_qAAg-WyQH83ZszarSNKc";
   str_bytes "sAAQEAAQH8HsHUvGwApOUB_Eqiqp5SyuCHAAEBAAEB_P4hxMctvUjRAfxnHuBu_HXT4QABAQABAfymfTactcwx1gH8Icp3IyaujmAAAQEAAQH8cDGngppKGzoB_MylECYCZqXGAAEBAAEB_Cxrkn7s";
   str_bytes "quFFAfzvzIGxZqssMwABAQABAfx4bvwgL0G5wwH8HuPWD2rzWHgAAQEAAQH8J-gjjF9EPfYB_LaiHNuAl65mAAEBAAEB_B5av2NUMr-2AfzMwUabw05SRQABAQABAfxILOUvISw1mgH8_lcHUNvTXp";
   str_bytes "0AAQEAAQH8ASWoSqRxiCQB_MC-AL-kH_i7AAEBAAEB_LESBxwvL7WUAfy5GKn8G6fgOAABAQABAfwgtHDI3HuiSwH8DSB2EBWXgvwAAQEAAQH8J51m68nA0wkB_PcjXo2cmFjiAAEBAAEB_GhNOayv";
   str_bytes "4cvqAfy76E0UHLopBQABAQABAfzgUeAo4PO5ugH8VpiUeeuLT1YAAAABAAECSDA5pdNBwJPjnxV4iNvGpdfmkzXqi8Uc11QcnW_7DBp8lKx_rowAATmxVG6S4JppbpZbJU3aZZXPa52AkyJmOLFkcQ";
   str_bytes "JiRYmrPagLNz8DTCQsdcQnFXLM-2f8qO2q3iMFgWeOOsZ4WXrHUsaCLimDl5zUjJo9vLv14lmN-lZ08gYBAgEBAQEAAQH8_p0afZ5vlFsB_J5qFOanysI0AAEBAAEB_AdAbP5WNI7FAfxSJQ6tLG4r";
   str_bytes "cwABAQABAfyVnS4O4rVdaQH8xQbAV7LRwqcAAQEAAQH8osKaiVy12owB_O5aOFBJp21xAAEBAAEB_AaY9zrzAK7lAfwYyRPFhYzZVAABAQABAfxgblAzm_WBbQH8dOLDRt4RoM0AAQEAAQH8hyrBb9";
   str_bytes "OhscUB_K2obrL_-efFAAEBAAEB_DjNh4bpMmpoAfxu_IqqVSc9FwABAQABAfyjLEwAcNxsFAH82DQn99QzR00AAQEAAQH8Yr3wmuuScUsB_AZpD-r3hK06AAEBAAEB_KOcxwA41xDdAfyx4TP4C6FI";
   str_bytes "JwABAQABAfyfNjNgByGJAgH8GH8XNjCbmxsAAQEAAQH8jv8noOn7nvMB_CKCmA5iH59oAAEBAAEB_DpP60G3dOMXAfxXNTEcN1JMggABAQABAfxAM3V-VupUlwH8kc83OahzhmIAAQEAAQH80Ck9Sa";
   str_bytes "9pkfIB_AslFCAAktlfAAEBAAEB_Kvb_sxftPaSAfxhccxlfGMskAABAQABAfz85W87LwKKvwH8G6-4q4yIrK0AAAEBAQEAAQH8DMVpym0zoQgB_IuGEn36D_DDAAEBAAEB_IkAs_6a1ot7AfwRKLlq";
   str_bytes "jdLzswABAQABAfzBBzWGcLjPcwH8nOfrwyXsm3IAAQEAAQH8JU-rVyi2WwoB_PKA6zqDmK-xAAEBAAEB_Lkqp1a0cHOtAfz8nvHVI_lPNgABAQABAfwAfC-OYhyHWQH8h8wmonP2x5wAAQEAAQH8r_";
   str_bytes "K2nh2CVCMB_H71ffbRa7nVAAEBAAEB_PaGkKDQ93sUAfxoKiRAzmJeYgABAQABAfwOrVYyYxvGrwH8--EfoRBygAkAAQEAAQH8kUGsyr4eWPkB_KbJtz6Z1R5XAAEBAAEB_L3DZM2jUE6qAfxoxf7B";
   str_bytes "CucU2AABAQABAfxt3l6C36wdsgH8pQfbxReiCP4AAQEAAQH8f6rm6dYPToIB_Cx_uU6YOvb8AAEBAAEB_MoEG3EriDHDAfwpJq62x6w5kQABAQABAfzvUYH9R48P3AH8h5U7xEN6qQAAAQEAAQH8vz";
   str_bytes "KG0R7YOGAB_KsFqqJwvLP5AAEBAAEB_FpHr-Xg0nWUAfz20sOuAqfL0QABAQABAfwEfC359g94vgH8VOL7MpFYPeEAAAEBAQHFn4aQFgBI2GDXcPdOc1EsQZ8KS4vGw9hYCk2yDF5eOgEBbVGq6-0G";
   str_bytes "0nSa8ok7FYnvnJ0ObTJ9hN1K1DzP_I-pzTMBATzZ-9xtoegAWYXcFBvq2o0RwFpAXF_bYcNv_MBJDfcmAQF7f6cCIRNEB9wpHd3XiN9QuLeKiuPquoBTLaJT_ECpCQEFvCv5PCUdi9A-RQnu66Y8oa";
   str_bytes "W6qAxQ3dSPBK4Ox3c3EQN0zzBbePrf-8hTsYmRUAEeHxFi6X_NzApRJWLEZjh3IhDCvj6Bp2c2V1PavlSytfPc9Wwgeyxz-eIngUJt16wTVSH3tu47eimSxtXKqyXtgbSqOzxFEYmJCUHHJi0c9y-n";
   str_bytes "EpaXbUtL7BCGwlaB-EXsQqTXAbIHsfKHhPAsuCEmCwEBlq4Pa9LiSB9sBxPIpfnjs5edIjzY2_Uju71rcd74OyQBAW-qp5OUEo9NggJljqLtU5ceSwaAo6jWY0FYiRkxRWMsAQH_v28Lo818reRiIp";
   str_bytes "PUzqASYqKfNzC9iCO9e0HrHsuaBgEBARbL0NaRWMlSRSNMwZSy2vAqL3hHkv8YHzIzfXSUDpcWAQHSsSQdmUVrzE7AUA9zE8FeBYsyVqQQc3uomyt0uUA_GQEBgfTYznuyfPGxd8FzYqkBK3K5oVIO";
   str_bytes "yDrcoL0gzaHgdikBAa4RUMme42bKeyFk-VyqqLPkCx8zQmB4oWHEEIpHuUglAQUSwDH34aFmRzn7SNFtkNC_16Jwb4a1nkd08VF5TtTpC-uYI6IvmSYJ7dKT1Ssk8uMSxwLSZ6BvEwHKJYvkiFUg2N";
   str_bytes "sVQPCI6y9CMWXCqJ5tOiszxg0NspVeqIirAdI7lSrCEC6dorSiWhCOWBqbIwuTWG0JxbRf0ycocIL_bn8wB3uGYDCFBppUdlyeF8aLTizxdwIEZj6T0fUQKnRXT5g8AQGf1ntCuVPIcWo9lPqo6X2o";
   str_bytes "5jIn7MGXk79PDhFUFt7WKwEBdGzyhvuJq52Q_NxWtbRWlaS3MwV3AHlVl3B3kEES_ygBASvjkoZC7RU35xoFHO64IPg6c0gkM_yhEftfZPQluh0RAbeKnQYvN0EJX-66eBul89XsW31TIGqowlTG01";
   str_bytes "BFjD4vn07NlTCZSMYyww4uN7mRaFmcwhxYTDQrmM2flLHiJygBAQEBAQGfP1pCUlwOROtFqeGJJtcHb_EKynWbDnyrfJl5UiHfEzJ2QnMnfUrdwLZ11u5Fohfv5XafLPiEo6HEi0-IuucfAQEBpfcr";
   str_bytes "70oGQ6bxfJJMoYIdJMjFi7i3v5QTRn2pcB0StCfuMMY6dMQGIhXVlprtegvZpLVf4CtbEsmNlkZgkPvfLQEBATCbkGfPJXmYLZh9f1-rbjFv9MIe6a95LYnY59XPmbEZeBfbIhvlXAXlz6BEHCTFI7";
   str_bytes "YPp6tNpGWyU93dpfsHxQYBAQHqidH0Z7L0IenfN2sRvlVvkN85TzqZR_WCjLEgr_AsD5OhrP5-aJu_uaLSRrNIkn8afmBeIlzofrlcqV_nR1seAQEFAQH8O7Vl94cFJ-ZNBc_33ZVXpzbq1tVqEhdy";
   str_bytes "PCRwWw9VIq7AB-ZtWeg_ECXqEHl5IeCvD8QP242QUQMXCBJTIy4uAQHaaMCPDiSXHgS_LIp0MpyHU6t2mwCFGUGlhGwcbEJvGnOUqL2N020CaLCAPUF15Zinb6IW8nXQYmLiZEJ2lGU9AQGbdpiCw8";
   str_bytes "zAwluQAvZoM9npleYDyFUW1IIw481ZXOJbFz8-HIgq0mr-nLnRYdjUZVBtuYaIYQ04QLGnFrVfjBE6AQGLwg5R7sxYXxdJlI0tDgwL7tgfT5WR5Rt7rj5RogItKtaoodbHKyCfhJh2p2QIJntKav6G";
   str_bytes "liWDxDYZw7wrdEkyAQFe6Xd0k6s8GC0ip6f4lhJNqn1BPF81S-il3wf3xF0qJq7My9qUxZYX9bJc9AGMD0wppdp0LNTai2W1NaxrsH0WAQHkXRP-sMZNWysvjxx2IhYuvsHk8ets0kLvSmbth0vNHu";
   str_bytes "oOlLBdjdJ9bY5t3YBgZKFO2hDwQMGRUsmeJfqbHlsYAQEBETmpTk_ctjxQ90WTO4-XpvMyBBI5PQdONBINVFTWiaAQLMMB971ymI8aUfH8qCQYBYMWje0COObe5RQUCUUsnTtGzmd15bzD4b9crydQ";
   str_bytes "DDm9Rh7EZAfi6KaVCEZ-XVnIDIs0dwWPZlnoZ5mnkVNzxGzAWpQmEzOwmPRaVo7Ratkl2rB20vP-C60MOUWdzBxBOJt-_7EpXDmTqHb6dXVJEQqJsjdoO77zNdOfZWLmNkxSyWRzi2WL9zIVtmL4ha";
   str_bytes "zBHmj5cFiYs1hSIlL-OOERQw72A3IeF0Byxs6K_x907Us7W4QVhWX1W92Js51NqDwKRtOxQwgBywOVuXYvEJUNPwouMMPjOlQfJsCedQiGDTA64rlShqPmnXBSWqBiDFPQAtg0_OQJntqy7i2sXTay";
   str_bytes "8J0l7FP7ZU3RP3aeLQ6mgUMIXn7dKP9t2_IhUsz8-_wzi-fjc9r93ifnkXWt4VBTxSql_CgRJy0Eiv0hyT7qKbrog1FbZnFZMXU9PdO1LDrSEgecDFJlyfdJ1NcXsxCMNTscc65vagWfloZhPsHujz";
   str_bytes "YQY4E8ifUQ6t4JFgbL5CXvaxmGqhJGUmEL42D-NM5iRD37JgPubfB9FVsRnKaOHZJfA0kYdqwKHUSL05mJ9Yi2PgmajUYltW_QIHKHqzgYqji_AcTNIu3CCRU_bGqjHkARtb2CwXRr0Xgw99qUCy70";
   str_bytes "eVPMGf-j7W0-yFxaH18CXQXgRYKEqIVXfNN638j0SRPNQHCNbWkcwtTk2kBzt3MeGx5zCgfx8YendUuGXlZw6TFrzJFMUyZp6KJnJ70EMeIzHZ7wMy_xFKAyTOyuEYcZZbE8Vo0_vr3N9TJNLhVAfA";
   str_bytes "byek0NE9pG0BgAJ-ves5oKXidg1dLo9BJZi6e87cEHIQKh666w-0g_ymwFfzZvWTJlT8vYhbYcl6fiQYWWmFYvovHYojyJ713XAiHj-jdwpofGwPMffcgHfNhYsdXI8AIz6vIE7sSKvqzVdBwEETGb";
   str_bytes "KvFc4zaXIOPLRDxNRz3INYXUIxBjYtlogbAhSfLvZ8SqawiZdsrF1INUC1M9xgMcNTHncQOkXt5gDmeYEl4LgNzVlWv_830vJtyhBU7SIRY96i-FBsH8pv4WrmrDuCpNK8jY-Gr4tCX3It3nrRPjMd";
   str_bytes "TXI9WDkaCYFD4wH4tIGiKf0J18AOYHY3j7GU_UQtYVRUsHLwL2RNEFH_kFC23kCMLUuJi4u1SICYuMCR34dwOSwsZ_RSbD40MgPHjfnKyMg-QjhkRlB59uiOb3nPJjHnSWPNEw2zKISUCKRTjqqbrG";
   str_bytes "En_syQO2ElhFnqQ7iT8FOcGY0PRYFFoHWayaYQYPVGhOMmheixy5dSAyZiWosDzswuuvM8Rgv8eRhd6W25U06Z9ydYyeMDxEd-Cnt453FWVjzxYeDBrb4u2AmWfeaMYL3Hh89YNwTEzkPnprfZAXTe";
   str_bytes "OyalroTehMXHDB93Lve9y6oPfijKK0UWGojtpS6SJTMoWR-xt1vYQaK9RYoqwjDUsbNQjJA8189reG9l9lBppzM9o7Qq8C46goOwxiIY9hvJzrnvxRSy33JNm1ixkm33V27WzIW2sGd3gCeezqj_Tw";
   str_bytes "mwMat9BIO-Ptsfe8JhtJREpg066xqxzNVExc0AkhGydU7EqQZqxRuG-lIOqHME1uLttrFFx0EflHp7AizgQhOhDpYOH3Ke9D3tZ95AU7itWJntEx8msnSdFDyj4H_X8ao6CAgi-0yb4VvK32SDD1Nk";
   str_bytes "GuWTtjTlBX2VZdHZYm8Lf97MXqObN1gYEas8S0L3ZhJ8u5j567aDL9nUFTVVzYOdAySOQlxyu4KNQl4OkwgdTEzMXJNQcc294zlTA0LrUgEAQolCeXizaF7jZN5CX9BL7agtDcwaofK2pwkaFY5GSE";
   str_bytes "CQK-5QY5Cdcnfi9SHo6W_cxz0likUQwfIfVq5LeznnZFy2QFqROSg09s8Pgbw2Aelzme165-aJ-yNhEwNKsIhmJFVS0c3s7pGlpIjAGxCyr2nTZ7VHj7lrmU3CYMiosh-V4icMbKLe-pIDzKB0TRiD";
   str_bytes "VbrdyZ1x_-sGez12L31lQfcudJ5v2ExYjDjbU9paZsmJraFSjihI3acpVGLy6ydI8PFx6svxSYbKNjPBvbDu7GIDdieNht17sr3C1JpIC-4R-7p5K1C7PYcuBTKsf9pxexFEI_WWfAeN1r1eB0hUtq";
   str_bytes "44NhrAYGY2qYw-IjxtqjM5lrZ0XSIaXAQ6uuAby79b90ZDkHVkYx29FLWD3sLXHmewEyhyPES0l8TjpzaQKYkDWR8fDEHoQGq1aJBwKa1Mn8mumMfPsubyF4IyY8AbbH5NYGCwzlXlQgTSMyHBHnga";
   str_bytes "vy-QhYqExy1Q4QFLwS8DxzU3MTOzNec3m-8Q2H3XEE9pMnXUroNvB5J6syvXJEYRwg8YkTXyYypW1pEx0ofo-SQrRFSCRlaacHcufnQuidpZ9m2Ram5GzujrI2qxYjOBWDN7XbS3SM5pasX5fFtZjG";
   str_bytes "J6X8Z-HRK7XE0SZLEIE_Nnuc7jvFBDS5cu9xKfj-d33CHMu9ynoC4uWyOU6J_yoOxUO1WMw1J8sEfUT4MkOPqepUJfXCWIpZ5-YcCUsqFALnjMrDrocLyNNqye3zeiM0llom7GRBUARVOgu_qhSAH0";
   str_bytes "FwZSIatvelXDBuApqMgFvAeggcd9JAWgU2OLVjYrRpgAyoQCzBAqlfK7LsgXmqfrtz3EqiyEkHSywoKzH-95N_3PGIjCLVgI--das5IptlDWz8-ee5L3i93zKWaV3iXdw9B7eAhwum0yw7AL2dAzE9";
   str_bytes "VJgSJcGHU8kFOHj35LCcxzfzpSDSSXvx8Lgs0SpghNUavKyFS7vi7Dg5rdy37t4BqMnw8S-kwc5EHlK9QetaIv01qd52w-8tsCDkBzucUuYEOwUx6Uq2Qfnp74SlgcrFA4sMWX5hHvaTPXZgNUv9hD";
   str_bytes "NtkjR4_dST8MM6CnSbv-8Jor_UVwEujxcC5HnJGFfYExH0Jm1u0jMbhmI3QbDHOQrfTax4tz8FvzYOosD9oTx3a5dzZGis0lg1LmHkSANhH6jVRqhVFtRHLa-FJjMD7gfiGsaAatUvCAIxcwSuMTWI";
   str_bytes "GGoyu_Vz71IWFvJBPy3mP8Ra-0EnSoMwpJfCxhRMo4ChHp496YEIXjsBAQGNLFJlMmvlQ6YgKkOW9pIxPZotU-RsGTBsBHLYdOLoBQEBwMMUpUByzCsqdYI1wF6oEQEUigFzKgHQhpFTYxP0TikBAd";
   str_bytes "VYrhqiidw3x0M84ho_ykA5Ph07lB9x51DEgWJ_1Qo-AQE_6YNIoiucwXuJv31YfNndNc8rlyL_xwZV39ZgwAi6EAEFyIoZCDiAPKraviC9UJdejvMFKbF0VZjnJpR-e_mbcwJSJiqKkHUXurAV9pX3";
   str_bytes "OCHT_d7cKLPMKdk6Y0wTfeZnOjhJZ2lA1nydyKOvXFe4NbG2y-B2YLto9ltTcMBnpHESnmiOlLnJ9SBAGn53tyO8NFCbaYOotdk6kX-w025lZgEmMfMCNQnzQbGxlLEKQfgEctbYL6srOH7_XE1q1m";
   str_bytes "aNEgEB2L8vfqhGnOmHtnrUvbuRgI7-yehGTbmHRgh4x_v2FxsBAcR3N0sBitbxFMa4KkSgXqacq9eLEDHqjSYIRalJCyohAQHHTt8lq8MBA_YDZiTSj99YlWtuqIfXExIxjkFuwCMCAgEBAYcIdlce";
   str_bytes "ER2FdlvmvQF_1-W7HAWmOkuOgYJ5QWGlVcoTAQFgV1jdtyt2TFI_JxH2iPKiKxb3zcOdNhq-of3uAccsPQEB4Ur6Qh8bgnRGlcLLZO9CEI7z3SnSMIecjGpNhMN3vR8BAVCqxM0Xc-97TiJIMP1aHn";
   str_bytes "yDl9FBWxDArbwMrX6Y1B09AQWNiu9uQVYKOuEGxn8RR5lKzcB4tWGBYfzqdDiGKWtuA6LdAl_GNhcaKFqcOXIlpBfWxoGrulQ1XCm2DGRfjMMCLC0fgP3HHguoR6Arm8BkACEfaZs_ab67TCLAqxJV";
   str_bytes "lA-CNJifmJwzz9yddf6LOv1g6ood1Muof6Er7LxPZuUMK3Pvwy1KfrmIV0-8nsmlm3yZH4jGnL_mpHmtgsLXMFYaAQGa3zfDzMfvLJlT4JOPU035rQAOHxBbVNoyCt1NyWMEKQEBd34Ufr46TGmGtW";
   str_bytes "KhOK5OeO8Abr3374M2D-mUmc_aaTkBAbD8EL0Bt2M-EUCmKUd3EzbN_7BHivzQedBvurXzOXAD"]));
   ("staged_ledger_diff", Obj [("diff", JArr [Obj [("completed_works", JArr []);
      ("commands", JArr [Obj [("data", JArr [T "Signed_command";
         Obj [("payload", Obj [("common", Obj [("fee", T "0.01");
            ("fee_token", T "1");
            ("fee_payer_pk", T "B62qoSuxNqwogusxxZbs3gpJUxCCN4GZEv21FX8S2DtNpToLgKnrexM");
            ("nonce", T "5694");
            ("valid_until", T "4294967295");
            ("memo", T "E4Yd7qwaRCHR6t7i6ToM98eSUy5eKKadQUPZX7Vpw4CWBvWyd8fzK")]);
           ("body", JArr [T "Payment";
            Obj [("source_pk", T "B62qoSuxNqwogusxxZbs3gpJUxCCN4GZEv21FX8S2DtNpToLgKnrexM");
             ("receiver_pk", T "B62qn2MtuQ9GyyVnotUHB9Ehp9EZre5m6TYpGx64tBCDHHBZFZRURnL");
             ("token_id", T "1");
             ("amount", T "27370000")]])]);
          ("signer", T "B62qoSuxNqwogusxxZbs3gpJUxCCN4GZEv21FX8S2DtNpToLgKnrexM");
          ("signature", T "7mXTB1bcHYLJTmTfMtTboo4FSGStvera3z2wd6qjSxhpz1hZFMZZjcyaWAFEmZhgbq6DqVqGsNodnYKsCbMAq7D8yWo5bRSd")]]);
        ("status", JArr [T "Applied";
         Obj [("fee_payer_account_creation_fee_paid", JNull);
          ("receiver_account_creation_fee_paid", JNull);
          ("created_token", JNull)];
         Obj [("fee_payer_balance", T "59778375293571");
          ("source_balance", T "59778375293571");
          ("receiver_balance", T "11241317900")]])];
       Obj [("data", JArr [T "Signed_command";
         Obj [("payload", Obj [("common", Obj [("fee", T "0.001");
            ("fee_token", T "1");
            ("fee_payer_pk", T "B62qktYjLR4e9YBeC1LYF2S67g1sxyquh51q13tLuaJTHNxQ5MCs7U6");
            ("nonce", T "80780");
            ("valid_until", T "4294967295");
            ("memo", T "E4YM2vTHhWEg66xpj52JErHUBU4pZ1yageL4TVDDpTTSsv8mK6YaH")]);
           ("body", JArr [T "Payment";
            Obj [("source_pk", T "B62qktYjLR4e9YBeC1LYF2S67g1sxyquh51q13tLuaJTHNxQ5MCs7U6");
             ("receiver_pk", T "B62qmWdrzP4KE4PB7oj15XYpFYWKBz9KVsj33u4BBzmZDWJKvwDnAw1");
             ("token_id", T "1");
             ("amount", T "1000")]])]);
          ("signer", T "B62qktYjLR4e9YBeC1LYF2S67g1sxyquh51q13tLuaJTHNxQ5MCs7U6");
          ("signature", T "7mXM9KAun1w3vemQWFkWp9YoTjLb4ZLfBpnf9eMzufdCk6W9h3wTBJ2NVDdpFUzqrznCW8qjstE5HwABXeDomKd7gZyG2cFW")]]);
        ("status", JArr [T "Applied";
         Obj [("fee_payer_account_creation_fee_paid", JNull);
          ("receiver_account_creation_fee_paid", JNull);
          ("created_token", JNull)];
         Obj [("fee_payer_balance", T "15259324000");
          ("source_balance", T "15259324000");
          ("receiver_balance", T "249250000")]])];
       Obj [("data", JArr [T "Signed_command";
         Obj [("payload", Obj [("common", Obj [("fee", T "0.001");
            ("fee_token", T "1");
            ("fee_payer_pk", T "B62qre3erTHfzQckNuibViWQGyyKwZseztqrjPZBv6SQF384Rg6ESAy");
            ("nonce", T "104077");
            ("valid_until", T "4294967295");
            ("memo", T "E4YM2vTHhWEg66xpj52JErHUBU4pZ1yageL4TVDDpTTSsv8mK6YaH")]);
           ("body", JArr [T "Payment";
            Obj [("source_pk", T "B62qre3erTHfzQckNuibViWQGyyKwZseztqrjPZBv6SQF384Rg6ESAy");
             ("receiver_pk", T "B62qjYanmV7y9njVeH5UHkz3GYBm7xKir1rAnoY4KsEYUGLMiU45FSM");
             ("token_id", T "1");
             ("amount", T "1000")]])]);
          ("signer", T "B62qre3erTHfzQckNuibViWQGyyKwZseztqrjPZBv6SQF384Rg6ESAy");
          ("signature", T "7mXPMG1JmXEQfvL15JB14M4G3Ck9nyRTReaX7HRaMPR8XfrQjyPwFMXngNxmkNQ17vTBtsHwc1x7Emw2tTxXGnxgNUrVf5pW")]]);
        ("status", JArr [T "Applied";
         Obj [("fee_payer_account_creation_fee_paid", JNull);
          ("receiver_account_creation_fee_paid", JNull);
          ("created_token", JNull)];
         Obj [("fee_payer_balance", T "990175941111");
          ("source_balance", T "990175941111");
          ("receiver_balance", T "817846858")]])]]);
      ("coinbase", JArr [T "One";
       JNull]);
      ("internal_command_balances", JArr [JArr [T "Coinbase";
        Obj [("coinbase_receiver_balance", T "20203793056339");
         ("fee_transfer_receiver_balance", JNull)]];
       JArr [T "Fee_transfer";
        Obj [("receiver1_balance", T "20203805056339");
         ("receiver2_balance", JNull)]]])];
     JNull])]);
   ("delta_transition_chain_proof", JArr [T "jwHLk8kaC6B45K3sjuX2sM38649VtfpUAteTfKFQMPcqTeXjGiT";
    JArr []])].

Definition state_113267 : json :=
  Obj [("previous_state_hash", T "3NLC4u9241gWoCdEKohTAZpwCvDzAmjVACcRsfg4yN61Dgne3F17");
   ("body", Obj [("genesis_state_hash", T "3NKeMoncuHab5ScarV5ViyF16cJPT4taWNSaTLS64Dp67wuXigPZ");
    ("blockchain_state", Obj [("staged_ledger_hash", Obj [("non_snark", Obj [("ledger_hash", T "jx4Y8BoWhe7DQcUKFo23MLemXCHRmK211yRrt7FrBbjxQgkFEEn");
       ("aux_hash", T "UndYn9BhEjLZPWJXDgeBRwPBUjDqpsSQZqsuSvckiFAp9Z22VU");
       ("pending_coinbase_aux", T "Whgx2qfR5zrbsoPn6vau8uCxJ2UKbu3C1gMMr1EsBaX5jJdnXm")]);
      ("pending_coinbase_hash", T "2n1qWJYRPTiF92c2MMnE9jvtgvfVM3EQHMkTKZU1MmdEBrkmRdRZ")]);
     ("snarked_ledger_hash", T "jx12GDNzGtru185YWrA1YxiUuHhQApqDUgfinTHh5SWcQ49xF1i");
     ("genesis_ledger_hash", T "jx7buQVWFLsXTtzRgSxbYcT8EYLS8KCZbLrfDcJxMtyy4thw2Ee");
     ("snarked_next_available_token", T "2");
     ("timestamp", T "1646030880000")]);
    ("consensus_state", Obj [("blockchain_length", T "113267");
     ("epoch_count", T "23");
     ("min_window_density", T "14");
     ("sub_window_densities", JArr [T "7";
      T "2";
      T "2";
      T "5";
      T "6";
      T "7";
      T "5";
      T "7";
      T "5";
      T "5";
      T "5"]);
     ("last_vrf_output", T "r0K80Xsb44NLx_pBjI9UQtt6a1N-RWym8VxVTY4pAAA=");
     ("total_currency", T "896925772840039233");
     ("curr_global_slot", Obj [("slot_number", T "167176");
      ("slots_per_epoch", T "7140")]);
     ("global_slot_since_genesis", T "167176");
     ("staking_epoch_data", Obj [("ledger", Obj [("hash", T "jwb5g4nyyMFvrXqN9wZLLb2TUx3Ux4gJ5F1k8Rt5nT9Eyaw9mZK");
       ("total_currency", T "891543772840039233")]);
      ("seed", T "2vbxTg9AoPTHWikXauxY5nDdsi3T5No1YEcAPzDogYz6MHoDuJas");
      ("start_checkpoint", T "3NLuG9aJEm4xm4tNEzYKM88aNksquUvPbmdACgf7kQnhCBEcE2gJ");
      ("lock_checkpoint", T "3NKtELQayz5CMSB6CsssuRfuauzKf6s1JYgNNi4GLDpMTrscEjpQ");
      ("epoch_length", T "4629")]);
     ("next_epoch_data", Obj [("ledger", Obj [("hash", T "jwHGGFvSf4BVMuQs65gXb384cGzdkbQDyr9rVUPnGDXa1kKJNne");
       ("total_currency", T "895372732840039233")]);
      ("seed", T "2vbawE24T8yoFYZHkkrcf63zFoWD2UpggQyP8vS5z4bp3QnmXwpG");
      ("start_checkpoint", T "3NLuXyzbJQAV7CRqgkeffXb2ETUhNGYMmcyhvCtRM81TAAN6Pifd");
      ("lock_checkpoint", T "3NLC4u9241gWoCdEKohTAZpwCvDzAmjVACcRsfg4yN61Dgne3F17");
      ("epoch_length", T "1879")]);
     ("has_ancestor_in_same_checkpoint_window", JBool true);
     ("block_stake_winner", T "B62qknDqgJLj9AMwCjNqpJWZgtpfEL6ZKZftEEPRuEjo73mTvPXQ6qN");
     ("block_creator", T "B62qpge4uMq4Vv5Rvc8Gw9qSquUYd6xoW1pz7HQkMSHm6h1o7pvLPAN");
     ("coinbase_receiver", T "B62qk9WYHu2PBYv4EyEubnVQURcwpiV2ysuYYoMdwi8YTnwZQ7H4bLM");
     ("supercharge_coinbase", JBool true)]);
    ("constants", Obj [("k", T "290");
     ("slots_per_epoch", T "7140");
     ("slots_per_sub_window", T "7");
     ("delta", T "0");
     ("genesis_state_timestamp", T "1615939200000")])])].

Definition block_77748_bytes : list Z := List.concat
  [[1; 1; 1; 1; 24; 97; 86; 253; 163; 22; 50; 75; 148; 75; 74; 43; 85; 221; 216; 203; 21; 195; 45; 32; 182; 60; 96; 132; 231; 163; 214; 220;
    72; 27; 110; 62; 1; 1; 1; 80; 135; 218; 134; 144; 192; 21; 20; 242; 242; 216; 89; 147; 184; 189; 55; 144; 215; 94; 184; 239; 73; 232; 81; 73;
    14; 83; 236; 134; 110; 218; 21; 1; 1; 1; 1; 1; 1; 14; 177; 182; 109; 96; 158; 22; 162; 93; 150; 69; 47; 111; 246; 37; 193; 59; 250; 141;
    40; 109; 58; 72; 53; 121; 242; 177; 182; 216; 149; 147; 25; 1; 32; 96; 62; 16; 199; 96; 80; 150; 23; 97; 222; 251; 152; 207; 120; 13; 98; 201;
    19; 204; 217; 179; 136; 146; 112; 246; 109; 149; 251; 212; 41; 142; 227; 1; 32; 190; 57; 78; 70; 122; 204; 37; 12; 246; 112; 17; 189; 10; 158; 181;
    128; 148; 245; 131; 95; 185; 207; 86; 35; 95; 122; 123; 180; 223; 217; 239; 119; 1; 1; 40; 236; 180; 107; 182; 89; 185; 159; 154; 95; 241; 166; 126;
    143; 58; 77; 130; 180; 163; 126; 9; 101; 229; 36; 40; 38; 81; 99; 15; 250; 235; 49; 1; 217; 138; 87; 180; 87; 95; 112; 179; 172; 131; 95; 99;
    253; 170; 149; 240; 223; 141; 121; 210; 203; 70; 171; 136; 83; 43; 164; 70; 8; 227; 210; 11; 1; 133; 246; 174; 16; 42; 48; 61; 19; 82; 234; 190];
   [184; 70; 31; 98; 164; 122; 104; 123; 109; 205; 231; 98; 51; 185; 32; 113; 104; 160; 172; 247; 44; 1; 1; 1; 2; 1; 1; 252; 160; 114; 188; 238;
    124; 1; 0; 0; 1; 1; 1; 1; 253; 180; 47; 1; 0; 1; 1; 15; 1; 1; 33; 11; 1; 1; 6; 1; 1; 1; 1; 1; 3; 1; 1; 5;
    1; 1; 4; 1; 1; 3; 1; 1; 5; 1; 1; 7; 1; 1; 4; 1; 1; 5; 1; 1; 6; 1; 32; 88; 208; 38; 153; 164; 75; 237; 124; 242;
    133; 145; 226; 207; 110; 250; 49; 185; 193; 191; 134; 20; 32; 148; 70; 127; 211; 255; 94; 237; 17; 4; 0; 1; 1; 252; 65; 83; 54; 4; 169; 146;
    10; 12; 1; 1; 1; 1; 253; 93; 181; 1; 0; 1; 1; 254; 228; 27; 1; 1; 253; 93; 181; 1; 0; 1; 1; 1; 1; 1; 221; 39; 124; 199;
    189; 6; 137; 196; 198; 177; 230; 79; 147; 217; 32; 10; 119; 95; 116; 109; 235; 62; 171; 92; 83; 120; 93; 54; 181; 28; 26; 26; 1; 1; 252; 65;
    243; 12; 243; 31; 160; 243; 11; 1; 86; 6; 205; 101; 136; 89; 63; 77; 21; 222; 168; 130; 18; 64; 20; 219; 38; 239; 147; 193; 91; 86; 193; 74;
    247; 67; 104; 8; 68; 110; 142; 60; 1; 173; 11; 105; 254; 97; 70; 239; 67; 159; 234; 157; 117; 145; 26; 174; 187; 182; 207; 194; 95; 218; 91; 96];
   [220; 22; 200; 25; 56; 100; 163; 169; 34; 1; 221; 18; 9; 234; 157; 205; 176; 19; 55; 95; 230; 57; 186; 63; 70; 118; 15; 83; 36; 29; 154; 41;
    114; 177; 18; 171; 69; 24; 2; 100; 11; 28; 1; 1; 254; 89; 18; 1; 1; 1; 1; 1; 8; 233; 103; 128; 83; 244; 129; 207; 15; 176; 25; 109;
    100; 146; 232; 116; 227; 200; 23; 194; 121; 149; 240; 198; 37; 242; 202; 25; 9; 238; 80; 8; 1; 1; 252; 65; 243; 30; 183; 46; 23; 1; 12; 1;
    176; 34; 129; 55; 172; 173; 193; 111; 245; 251; 76; 128; 101; 17; 231; 51; 153; 9; 216; 122; 145; 58; 48; 215; 239; 17; 201; 63; 200; 161; 114; 7;
    1; 226; 119; 61; 4; 193; 75; 176; 99; 226; 37; 10; 171; 241; 159; 110; 6; 190; 251; 121; 137; 152; 44; 3; 199; 62; 197; 11; 65; 170; 17; 2;
    4; 1; 193; 110; 216; 28; 24; 129; 99; 79; 57; 79; 164; 2; 116; 110; 142; 81; 15; 128; 196; 131; 200; 30; 248; 29; 92; 115; 203; 217; 197; 242;
    70; 38; 1; 1; 254; 213; 12; 1; 1; 1; 101; 248; 174; 26; 177; 238; 39; 102; 128; 8; 107; 219; 227; 153; 102; 234; 93; 148; 177; 198; 79; 136;
    166; 233; 41; 241; 25; 130; 134; 170; 101; 61; 1; 1; 1; 185; 223; 188; 106; 33; 48; 121; 29; 133; 107; 180; 53; 27; 179; 19; 118; 48; 27; 166];
   [230; 230; 44; 5; 189; 81; 150; 202; 36; 61; 249; 249; 52; 1; 1; 1; 50; 130; 145; 246; 235; 77; 111; 95; 111; 138; 145; 135; 82; 2; 168; 215;
    168; 57; 123; 53; 156; 84; 237; 228; 127; 50; 71; 42; 245; 215; 111; 1; 1; 0; 1; 1; 1; 1; 254; 34; 1; 1; 1; 254; 228; 27; 1; 1;
    7; 1; 1; 0; 1; 1; 252; 0; 100; 123; 61; 120; 1; 0; 0; 1; 1; 1; 1; 1; 1; 1; 1; 1; 1; 0; 1; 1; 252; 130; 103; 197;
    195; 226; 23; 183; 64; 1; 252; 208; 114; 32; 25; 240; 30; 206; 24; 0; 1; 1; 252; 147; 220; 155; 29; 41; 191; 114; 204; 1; 252; 148; 30; 177;
    98; 149; 242; 99; 226; 0; 1; 1; 252; 33; 67; 40; 57; 78; 129; 60; 175; 1; 252; 80; 25; 60; 165; 109; 69; 41; 128; 0; 1; 0; 1; 1;
    252; 137; 78; 138; 28; 5; 255; 167; 15; 1; 252; 188; 28; 231; 70; 126; 109; 230; 187; 0; 1; 0; 35; 106; 221; 162; 22; 247; 218; 239; 152; 244;
    225; 80; 147; 173; 238; 196; 194; 12; 114; 134; 133; 221; 120; 142; 219; 122; 89; 62; 164; 184; 86; 51; 1; 0; 167; 245; 58; 94; 228; 127; 34; 187;
    135; 130; 1; 75; 54; 59; 136; 235; 101; 12; 236; 232; 58; 225; 167; 17; 144; 115; 160; 51; 2; 75; 94; 57; 1; 0; 1; 1; 252; 197; 6; 120];
   [126; 16; 200; 58; 62; 1; 252; 94; 133; 175; 195; 185; 9; 59; 12; 0; 1; 1; 1; 1; 0; 1; 1; 252; 66; 111; 117; 112; 92; 229; 198; 230;
    1; 252; 44; 248; 102; 54; 39; 79; 5; 114; 0; 1; 1; 0; 1; 1; 252; 230; 64; 40; 251; 76; 162; 38; 249; 1; 252; 208; 44; 176; 147; 42;
    97; 232; 158; 0; 1; 1; 0; 1; 1; 252; 134; 211; 107; 246; 35; 233; 122; 140; 1; 252; 136; 71; 147; 136; 160; 91; 42; 57; 0; 1; 1; 0;
    1; 1; 252; 226; 88; 65; 85; 253; 177; 167; 49; 1; 252; 17; 212; 154; 134; 84; 102; 171; 255; 0; 1; 1; 0; 1; 1; 252; 225; 88; 161; 210;
    198; 20; 145; 254; 1; 252; 204; 44; 137; 188; 18; 185; 233; 84; 0; 1; 1; 0; 1; 1; 252; 76; 24; 213; 250; 228; 255; 171; 54; 1; 252; 49;
    229; 208; 247; 34; 219; 174; 236; 0; 1; 1; 0; 1; 1; 252; 249; 241; 80; 237; 148; 195; 217; 60; 1; 252; 67; 232; 165; 151; 128; 59; 176; 242;
    0; 1; 1; 0; 1; 1; 252; 5; 69; 161; 209; 93; 191; 122; 226; 1; 252; 66; 144; 28; 198; 186; 56; 192; 142; 0; 1; 1; 0; 1; 1; 252;
    133; 154; 11; 183; 207; 56; 127; 139; 1; 252; 107; 237; 208; 146; 192; 69; 32; 58; 0; 1; 1; 0; 1; 1; 252; 19; 37; 125; 146; 61; 161; 143];
   [24; 1; 252; 40; 234; 214; 181; 101; 62; 112; 54; 0; 1; 1; 0; 1; 1; 252; 49; 99; 189; 252; 82; 93; 243; 13; 1; 252; 16; 211; 123; 204;
    250; 165; 167; 42; 0; 1; 1; 0; 1; 1; 252; 61; 187; 203; 152; 165; 24; 213; 27; 1; 252; 106; 224; 175; 161; 90; 149; 172; 238; 0; 1; 1;
    0; 1; 1; 252; 255; 140; 206; 146; 201; 223; 189; 105; 1; 252; 125; 62; 206; 205; 239; 80; 242; 240; 0; 1; 1; 0; 1; 1; 252; 218; 124; 164;
    239; 47; 225; 34; 174; 1; 252; 61; 253; 4; 224; 198; 24; 15; 233; 0; 1; 1; 0; 1; 1; 252; 78; 61; 53; 174; 157; 69; 83; 68; 1; 252;
    32; 156; 11; 189; 131; 180; 141; 26; 0; 1; 1; 0; 1; 1; 252; 53; 106; 181; 171; 51; 209; 83; 114; 1; 252; 205; 101; 210; 86; 76; 255; 57;
    103; 0; 1; 1; 0; 1; 1; 252; 157; 136; 161; 242; 146; 219; 67; 33; 1; 252; 147; 232; 205; 17; 47; 241; 77; 95; 0; 1; 1; 0; 1; 1;
    252; 220; 220; 216; 172; 8; 50; 125; 112; 1; 252; 152; 122; 145; 129; 87; 111; 24; 159; 0; 0; 1; 0; 1; 1; 1; 252; 231; 56; 156; 43; 141;
    187; 121; 113; 1; 252; 146; 224; 190; 171; 155; 85; 96; 28; 1; 252; 22; 45; 64; 145; 122; 249; 197; 28; 1; 252; 127; 139; 5; 189; 77; 245; 82];
   [59; 0; 1; 149; 28; 214; 15; 220; 117; 214; 50; 35; 249; 17; 129; 240; 117; 148; 154; 135; 24; 243; 9; 168; 157; 220; 71; 27; 7; 55; 53; 151;
    105; 146; 32; 88; 176; 160; 179; 58; 152; 13; 219; 250; 194; 192; 140; 51; 52; 211; 243; 47; 214; 73; 252; 37; 210; 146; 7; 62; 215; 21; 64; 93;
    199; 220; 5; 1; 1; 1; 1; 1; 1; 0; 1; 1; 252; 127; 220; 43; 10; 51; 126; 220; 57; 1; 252; 115; 149; 71; 2; 146; 120; 207; 26; 0;
    1; 1; 0; 1; 1; 252; 135; 98; 72; 151; 57; 87; 254; 172; 1; 252; 192; 135; 107; 41; 64; 22; 184; 126; 0; 1; 1; 0; 1; 1; 252; 202;
    38; 71; 250; 147; 101; 59; 148; 1; 252; 73; 5; 142; 214; 241; 19; 100; 219; 0; 1; 1; 0; 1; 1; 252; 230; 254; 111; 6; 124; 242; 45; 196;
    1; 252; 178; 86; 105; 57; 101; 254; 2; 108; 0; 1; 1; 0; 1; 1; 252; 51; 220; 54; 6; 231; 253; 62; 202; 1; 252; 23; 22; 79; 189; 2;
    2; 3; 174; 0; 1; 1; 0; 1; 1; 252; 113; 179; 190; 98; 247; 144; 196; 65; 1; 252; 78; 53; 69; 156; 81; 170; 146; 101; 0; 1; 1; 0;
    1; 1; 252; 234; 53; 113; 105; 163; 232; 129; 49; 1; 252; 36; 33; 209; 108; 149; 162; 134; 168; 0; 1; 1; 0; 1; 1; 252; 74; 130; 181; 7];
   [238; 172; 22; 245; 1; 252; 184; 122; 49; 117; 0; 201; 4; 3; 0; 1; 1; 0; 1; 1; 252; 45; 109; 83; 7; 5; 30; 1; 248; 1; 252; 19;
    147; 100; 98; 74; 70; 85; 171; 0; 1; 1; 0; 1; 1; 252; 226; 80; 54; 104; 221; 254; 176; 91; 1; 252; 23; 254; 217; 232; 36; 25; 103; 100;
    0; 1; 1; 0; 1; 1; 252; 209; 255; 254; 170; 141; 65; 121; 65; 1; 252; 217; 203; 228; 146; 53; 219; 10; 219; 0; 1; 1; 0; 1; 1; 252;
    232; 91; 159; 206; 201; 126; 88; 27; 1; 252; 216; 174; 137; 239; 146; 19; 68; 197; 0; 1; 1; 0; 1; 1; 252; 4; 93; 117; 184; 195; 230; 109;
    19; 1; 252; 171; 205; 133; 208; 75; 48; 146; 249; 0; 1; 1; 0; 1; 1; 252; 148; 198; 141; 203; 169; 208; 91; 152; 1; 252; 151; 0; 8; 101;
    118; 142; 224; 31; 0; 1; 1; 0; 1; 1; 252; 17; 19; 241; 27; 5; 9; 17; 0; 1; 252; 6; 23; 238; 145; 132; 12; 218; 49; 0; 1; 1;
    0; 1; 1; 252; 105; 248; 137; 119; 32; 74; 95; 174; 1; 252; 237; 132; 5; 240; 94; 68; 53; 209; 0; 1; 1; 0; 1; 1; 252; 207; 108; 44;
    72; 196; 57; 58; 90; 1; 252; 17; 208; 248; 35; 154; 126; 22; 178; 0; 0; 1; 1; 1; 1; 1; 0; 1; 1; 252; 244; 98; 162; 237; 10; 108];
   [144; 18; 1; 252; 51; 99; 57; 148; 40; 81; 209; 42; 0; 1; 1; 0; 1; 1; 252; 247; 115; 250; 128; 2; 15; 150; 201; 1; 252; 221; 155; 51;
    106; 180; 141; 41; 203; 0; 1; 1; 0; 1; 1; 252; 30; 193; 212; 188; 108; 0; 164; 229; 1; 252; 74; 162; 170; 158; 82; 202; 224; 135; 0; 1;
    1; 0; 1; 1; 252; 254; 33; 196; 199; 45; 189; 72; 209; 1; 252; 103; 30; 224; 110; 252; 117; 211; 225; 0; 1; 1; 0; 1; 1; 252; 166; 125;
    54; 156; 181; 204; 49; 214; 1; 252; 33; 202; 119; 35; 38; 174; 142; 96; 0; 1; 1; 0; 1; 1; 252; 112; 49; 167; 130; 154; 74; 27; 58; 1;
    252; 204; 165; 16; 38; 2; 102; 165; 198; 0; 1; 1; 0; 1; 1; 252; 44; 107; 146; 126; 236; 170; 225; 69; 1; 252; 239; 204; 129; 177; 102; 171;
    44; 51; 0; 1; 1; 0; 1; 1; 252; 120; 110; 252; 32; 47; 65; 185; 195; 1; 252; 30; 227; 214; 15; 106; 243; 88; 120; 0; 1; 1; 0; 1;
    1; 252; 39; 232; 35; 140; 95; 68; 61; 246; 1; 252; 182; 162; 28; 219; 128; 151; 174; 102; 0; 1; 1; 0; 1; 1; 252; 30; 90; 191; 99; 84;
    50; 191; 182; 1; 252; 204; 193; 70; 155; 195; 78; 82; 69; 0; 1; 1; 0; 1; 1; 252; 72; 44; 229; 47; 33; 44; 53; 154; 1; 252; 254; 87];
   [7; 80; 219; 211; 94; 157; 0; 1; 1; 0; 1; 1; 252; 1; 37; 168; 74; 164; 113; 136; 36; 1; 252; 192; 190; 0; 191; 164; 31; 248; 187; 0;
    1; 1; 0; 1; 1; 252; 177; 18; 7; 28; 47; 47; 181; 148; 1; 252; 185; 24; 169; 252; 27; 167; 224; 56; 0; 1; 1; 0; 1; 1; 252; 32;
    180; 112; 200; 220; 123; 162; 75; 1; 252; 13; 32; 118; 16; 21; 151; 130; 252; 0; 1; 1; 0; 1; 1; 252; 39; 157; 102; 235; 201; 192; 211; 9;
    1; 252; 247; 35; 94; 141; 156; 152; 88; 226; 0; 1; 1; 0; 1; 1; 252; 104; 77; 57; 172; 175; 225; 203; 234; 1; 252; 187; 232; 77; 20; 28;
    186; 41; 5; 0; 1; 1; 0; 1; 1; 252; 224; 81; 224; 40; 224; 243; 185; 186; 1; 252; 86; 152; 148; 121; 235; 139; 79; 86; 0; 0; 0; 1;
    0; 1; 2; 72; 48; 57; 165; 211; 65; 192; 147; 227; 159; 21; 120; 136; 219; 198; 165; 215; 230; 147; 53; 234; 139; 197; 28; 215; 84; 28; 157; 111;
    251; 12; 26; 124; 148; 172; 127; 174; 140; 0; 1; 57; 177; 84; 110; 146; 224; 154; 105; 110; 150; 91; 37; 77; 218; 101; 149; 207; 107; 157; 128; 147;
    34; 102; 56; 177; 100; 113; 2; 98; 69; 137; 171; 61; 168; 11; 55; 63; 3; 76; 36; 44; 117; 196; 39; 21; 114; 204; 251; 103; 252; 168; 237; 170];
   [222; 35; 5; 129; 103; 142; 58; 198; 120; 89; 122; 199; 82; 198; 130; 46; 41; 131; 151; 156; 212; 140; 154; 61; 188; 187; 245; 226; 89; 141; 250; 86;
    116; 242; 6; 1; 2; 1; 1; 1; 1; 0; 1; 1; 252; 254; 157; 26; 125; 158; 111; 148; 91; 1; 252; 158; 106; 20; 230; 167; 202; 194; 52; 0;
    1; 1; 0; 1; 1; 252; 7; 64; 108; 254; 86; 52; 142; 197; 1; 252; 82; 37; 14; 173; 44; 110; 43; 115; 0; 1; 1; 0; 1; 1; 252; 149;
    157; 46; 14; 226; 181; 93; 105; 1; 252; 197; 6; 192; 87; 178; 209; 194; 167; 0; 1; 1; 0; 1; 1; 252; 162; 194; 154; 137; 92; 181; 218; 140;
    1; 252; 238; 90; 56; 80; 73; 167; 109; 113; 0; 1; 1; 0; 1; 1; 252; 6; 152; 247; 58; 243; 0; 174; 229; 1; 252; 24; 201; 19; 197; 133;
    140; 217; 84; 0; 1; 1; 0; 1; 1; 252; 96; 110; 80; 51; 155; 245; 129; 109; 1; 252; 116; 226; 195; 70; 222; 17; 160; 205; 0; 1; 1; 0;
    1; 1; 252; 135; 42; 193; 111; 211; 161; 177; 197; 1; 252; 173; 168; 110; 178; 255; 249; 231; 197; 0; 1; 1; 0; 1; 1; 252; 56; 205; 135; 134;
    233; 50; 106; 104; 1; 252; 110; 252; 138; 170; 85; 39; 61; 23; 0; 1; 1; 0; 1; 1; 252; 163; 44; 76; 0; 112; 220; 108; 20; 1; 252; 216];
   [52; 39; 247; 212; 51; 71; 77; 0; 1; 1; 0; 1; 1; 252; 98; 189; 240; 154; 235; 146; 113; 75; 1; 252; 6; 105; 15; 234; 247; 132; 173; 58;
    0; 1; 1; 0; 1; 1; 252; 163; 156; 199; 0; 56; 215; 16; 221; 1; 252; 177; 225; 51; 248; 11; 161; 72; 39; 0; 1; 1; 0; 1; 1; 252;
    159; 54; 51; 96; 7; 33; 137; 2; 1; 252; 24; 127; 23; 54; 48; 155; 155; 27; 0; 1; 1; 0; 1; 1; 252; 142; 255; 39; 160; 233; 251; 158;
    243; 1; 252; 34; 130; 152; 14; 98; 31; 159; 104; 0; 1; 1; 0; 1; 1; 252; 58; 79; 235; 65; 183; 116; 227; 23; 1; 252; 87; 53; 49; 28;
    55; 82; 76; 130; 0; 1; 1; 0; 1; 1; 252; 64; 51; 117; 126; 86; 234; 84; 151; 1; 252; 145; 207; 55; 57; 168; 115; 134; 98; 0; 1; 1;
    0; 1; 1; 252; 208; 41; 61; 73; 175; 105; 145; 242; 1; 252; 11; 37; 20; 32; 0; 146; 217; 95; 0; 1; 1; 0; 1; 1; 252; 171; 219; 254;
    204; 95; 180; 246; 146; 1; 252; 97; 113; 204; 101; 124; 99; 44; 144; 0; 1; 1; 0; 1; 1; 252; 252; 229; 111; 59; 47; 2; 138; 191; 1; 252;
    27; 175; 184; 171; 140; 136; 172; 173; 0; 0; 1; 1; 1; 1; 0; 1; 1; 252; 12; 197; 105; 202; 109; 51; 161; 8; 1; 252; 139; 134; 18; 125];
   [250; 15; 240; 195; 0; 1; 1; 0; 1; 1; 252; 137; 0; 179; 254; 154; 214; 139; 123; 1; 252; 17; 40; 185; 106; 141; 210; 243; 179; 0; 1; 1;
    0; 1; 1; 252; 193; 7; 53; 134; 112; 184; 207; 115; 1; 252; 156; 231; 235; 195; 37; 236; 155; 114; 0; 1; 1; 0; 1; 1; 252; 37; 79; 171;
    87; 40; 182; 91; 10; 1; 252; 242; 128; 235; 58; 131; 152; 175; 177; 0; 1; 1; 0; 1; 1; 252; 185; 42; 167; 86; 180; 112; 115; 173; 1; 252;
    252; 158; 241; 213; 35; 249; 79; 54; 0; 1; 1; 0; 1; 1; 252; 0; 124; 47; 142; 98; 28; 135; 89; 1; 252; 135; 204; 38; 162; 115; 246; 199;
    156; 0; 1; 1; 0; 1; 1; 252; 175; 242; 182; 158; 29; 130; 84; 35; 1; 252; 126; 245; 125; 246; 209; 107; 185; 213; 0; 1; 1; 0; 1; 1;
    252; 246; 134; 144; 160; 208; 247; 123; 20; 1; 252; 104; 42; 36; 64; 206; 98; 94; 98; 0; 1; 1; 0; 1; 1; 252; 14; 173; 86; 50; 99; 27;
    198; 175; 1; 252; 251; 225; 31; 161; 16; 114; 128; 9; 0; 1; 1; 0; 1; 1; 252; 145; 65; 172; 202; 190; 30; 88; 249; 1; 252; 166; 201; 183;
    62; 153; 213; 30; 87; 0; 1; 1; 0; 1; 1; 252; 189; 195; 100; 205; 163; 80; 78; 170; 1; 252; 104; 197; 254; 193; 10; 231; 20; 216; 0; 1];
   [1; 0; 1; 1; 252; 109; 222; 94; 130; 223; 172; 29; 178; 1; 252; 165; 7; 219; 197; 23; 162; 8; 254; 0; 1; 1; 0; 1; 1; 252; 127; 170;
    230; 233; 214; 15; 78; 130; 1; 252; 44; 127; 185; 78; 152; 58; 246; 252; 0; 1; 1; 0; 1; 1; 252; 202; 4; 27; 113; 43; 136; 49; 195; 1;
    252; 41; 38; 174; 182; 199; 172; 57; 145; 0; 1; 1; 0; 1; 1; 252; 239; 81; 129; 253; 71; 143; 15; 220; 1; 252; 135; 149; 59; 196; 67; 122;
    169; 0; 0; 1; 1; 0; 1; 1; 252; 191; 50; 134; 209; 30; 216; 56; 96; 1; 252; 171; 5; 170; 162; 112; 188; 179; 249; 0; 1; 1; 0; 1;
    1; 252; 90; 71; 175; 229; 224; 210; 117; 148; 1; 252; 246; 210; 195; 174; 2; 167; 203; 209; 0; 1; 1; 0; 1; 1; 252; 4; 124; 45; 249; 246;
    15; 120; 190; 1; 252; 84; 226; 251; 50; 145; 88; 61; 225; 0; 0; 1; 1; 1; 1; 197; 159; 134; 144; 22; 0; 72; 216; 96; 215; 112; 247; 78;
    115; 81; 44; 65; 159; 10; 75; 139; 198; 195; 216; 88; 10; 77; 178; 12; 94; 94; 58; 1; 1; 109; 81; 170; 235; 237; 6; 210; 116; 154; 242; 137;
    59; 21; 137; 239; 156; 157; 14; 109; 50; 125; 132; 221; 74; 212; 60; 207; 252; 143; 169; 205; 51; 1; 1; 60; 217; 251; 220; 109; 161; 232; 0; 89];
   [133; 220; 20; 27; 234; 218; 141; 17; 192; 90; 64; 92; 95; 219; 97; 195; 111; 252; 192; 73; 13; 247; 38; 1; 1; 123; 127; 167; 2; 33; 19; 68;
    7; 220; 41; 29; 221; 215; 136; 223; 80; 184; 183; 138; 138; 227; 234; 186; 128; 83; 45; 162; 83; 252; 64; 169; 9; 1; 5; 188; 43; 249; 60; 37;
    29; 139; 208; 62; 69; 9; 238; 235; 166; 60; 161; 165; 186; 168; 12; 80; 221; 212; 143; 4; 174; 14; 199; 119; 55; 17; 3; 116; 207; 48; 91; 120;
    250; 223; 251; 200; 83; 177; 137; 145; 80; 1; 30; 31; 17; 98; 233; 127; 205; 204; 10; 81; 37; 98; 196; 102; 56; 119; 34; 16; 194; 190; 62; 129;
    167; 103; 54; 87; 83; 218; 190; 84; 178; 181; 243; 220; 245; 108; 32; 123; 44; 115; 249; 226; 39; 129; 66; 109; 215; 172; 19; 85; 33; 247; 182; 238;
    59; 122; 41; 146; 198; 213; 202; 171; 37; 237; 129; 180; 170; 59; 60; 69; 17; 137; 137; 9; 65; 199; 38; 45; 28; 247; 47; 167; 18; 150; 151; 109;
    75; 75; 236; 16; 134; 194; 86; 129; 248; 69; 236; 66; 164; 215; 1; 178; 7; 177; 242; 135; 132; 240; 44; 184; 33; 38; 11; 1; 1; 150; 174; 15;
    107; 210; 226; 72; 31; 108; 7; 19; 200; 165; 249; 227; 179; 151; 157; 34; 60; 216; 219; 245; 35; 187; 189; 107; 113; 222; 248; 59; 36; 1; 1; 111];
   [170; 167; 147; 148; 18; 143; 77; 130; 2; 101; 142; 162; 237; 83; 151; 30; 75; 6; 128; 163; 168; 214; 99; 65; 88; 137; 25; 49; 69; 99; 44; 1;
    1; 255; 191; 111; 11; 163; 205; 124; 173; 228; 98; 34; 147; 212; 206; 160; 18; 98; 162; 159; 55; 48; 189; 136; 35; 189; 123; 65; 235; 30; 203; 154;
    6; 1; 1; 1; 22; 203; 208; 214; 145; 88; 201; 82; 69; 35; 76; 193; 148; 178; 218; 240; 42; 47; 120; 71; 146; 255; 24; 31; 50; 51; 125; 116;
    148; 14; 151; 22; 1; 1; 210; 177; 36; 29; 153; 69; 107; 204; 78; 192; 80; 15; 115; 19; 193; 94; 5; 139; 50; 86; 164; 16; 115; 123; 168; 155;
    43; 116; 185; 64; 63; 25; 1; 1; 129; 244; 216; 206; 123; 178; 124; 241; 177; 119; 193; 115; 98; 169; 1; 43; 114; 185; 161; 82; 14; 200; 58; 220;
    160; 189; 32; 205; 161; 224; 118; 41; 1; 1; 174; 17; 80; 201; 158; 227; 102; 202; 123; 33; 100; 249; 92; 170; 168; 179; 228; 11; 31; 51; 66; 96;
    120; 161; 97; 196; 16; 138; 71; 185; 72; 37; 1; 5; 18; 192; 49; 247; 225; 161; 102; 71; 57; 251; 72; 209; 109; 144; 208; 191; 215; 162; 112; 111;
    134; 181; 158; 71; 116; 241; 81; 121; 78; 212; 233; 11; 235; 152; 35; 162; 47; 153; 38; 9; 237; 210; 147; 213; 43; 36; 242; 227; 18; 199; 2; 210];
   [103; 160; 111; 19; 1; 202; 37; 139; 228; 136; 85; 32; 216; 219; 21; 64; 240; 136; 235; 47; 66; 49; 101; 194; 168; 158; 109; 58; 43; 51; 198; 13;
    13; 178; 149; 94; 168; 136; 171; 1; 210; 59; 149; 42; 194; 16; 46; 157; 162; 180; 162; 90; 16; 142; 88; 26; 155; 35; 11; 147; 88; 109; 9; 197;
    180; 95; 211; 39; 40; 112; 130; 255; 110; 127; 48; 7; 123; 134; 96; 48; 133; 6; 154; 84; 118; 92; 158; 23; 198; 139; 78; 44; 241; 119; 2; 4;
    102; 62; 147; 209; 245; 16; 42; 116; 87; 79; 152; 60; 1; 1; 159; 214; 123; 66; 185; 83; 200; 113; 106; 61; 148; 250; 168; 233; 125; 168; 230; 50;
    39; 236; 193; 151; 147; 191; 79; 14; 17; 84; 22; 222; 214; 43; 1; 1; 116; 108; 242; 134; 251; 137; 171; 157; 144; 252; 220; 86; 181; 180; 86; 149;
    164; 183; 51; 5; 119; 0; 121; 85; 151; 112; 119; 144; 65; 18; 255; 40; 1; 1; 43; 227; 146; 134; 66; 237; 21; 55; 231; 26; 5; 28; 238; 184;
    32; 248; 58; 115; 72; 36; 51; 252; 161; 17; 251; 95; 100; 244; 37; 186; 29; 17; 1; 183; 138; 157; 6; 47; 55; 65; 9; 95; 238; 186; 120; 27;
    165; 243; 213; 236; 91; 125; 83; 32; 106; 168; 194; 84; 198; 211; 80; 69; 140; 62; 47; 159; 78; 205; 149; 48; 153; 72; 198; 50; 195; 14; 46; 55];
   [185; 145; 104; 89; 156; 194; 28; 88; 76; 52; 43; 152; 205; 159; 148; 177; 226; 39; 40; 1; 1; 1; 1; 1; 1; 159; 63; 90; 66; 82; 92; 14;
    68; 235; 69; 169; 225; 137; 38; 215; 7; 111; 241; 10; 202; 117; 155; 14; 124; 171; 124; 153; 121; 82; 33; 223; 19; 50; 118; 66; 115; 39; 125; 74;
    221; 192; 182; 117; 214; 238; 69; 162; 23; 239; 229; 118; 159; 44; 248; 132; 163; 161; 196; 139; 79; 136; 186; 231; 31; 1; 1; 1; 165; 247; 43; 239;
    74; 6; 67; 166; 241; 124; 146; 76; 161; 130; 29; 36; 200; 197; 139; 184; 183; 191; 148; 19; 70; 125; 169; 112; 29; 18; 180; 39; 238; 48; 198; 58;
    116; 196; 6; 34; 21; 213; 150; 154; 237; 122; 11; 217; 164; 181; 95; 224; 43; 91; 18; 201; 141; 150; 70; 96; 144; 251; 223; 45; 1; 1; 1; 48;
    155; 144; 103; 207; 37; 121; 152; 45; 152; 125; 127; 95; 171; 110; 49; 111; 244; 194; 30; 233; 175; 121; 45; 137; 216; 231; 213; 207; 153; 177; 25; 120;
    23; 219; 34; 27; 229; 92; 5; 229; 207; 160; 68; 28; 36; 197; 35; 182; 15; 167; 171; 77; 164; 101; 178; 83; 221; 221; 165; 251; 7; 197; 6; 1;
    1; 1; 234; 137; 209; 244; 103; 178; 244; 33; 233; 223; 55; 107; 17; 190; 85; 111; 144; 223; 57; 79; 58; 153; 71; 245; 130; 140; 177; 32; 175; 240];
   [44; 15; 147; 161; 172; 254; 126; 104; 155; 191; 185; 162; 210; 70; 179; 72; 146; 127; 26; 126; 96; 94; 34; 92; 232; 126; 185; 92; 169; 95; 231; 71;
    91; 30; 1; 1; 5; 1; 1; 252; 59; 181; 101; 247; 135; 5; 39; 230; 77; 5; 207; 247; 221; 149; 87; 167; 54; 234; 214; 213; 106; 18; 23; 114;
    60; 36; 112; 91; 15; 85; 34; 174; 192; 7; 230; 109; 89; 232; 63; 16; 37; 234; 16; 121; 121; 33; 224; 175; 15; 196; 15; 219; 141; 144; 81; 3;
    23; 8; 18; 83; 35; 46; 46; 1; 1; 218; 104; 192; 143; 14; 36; 151; 30; 4; 191; 44; 138; 116; 50; 156; 135; 83; 171; 118; 155; 0; 133; 25;
    65; 165; 132; 108; 28; 108; 66; 111; 26; 115; 148; 168; 189; 141; 211; 109; 2; 104; 176; 128; 61; 65; 117; 229; 152; 167; 111; 162; 22; 242; 117; 208;
    98; 98; 226; 100; 66; 118; 148; 101; 61; 1; 1; 155; 118; 152; 130; 195; 204; 192; 194; 91; 144; 2; 246; 104; 51; 217; 233; 149; 230; 3; 200; 85;
    22; 212; 130; 48; 227; 205; 89; 92; 226; 91; 23; 63; 62; 28; 136; 42; 210; 106; 254; 156; 185; 209; 97; 216; 212; 101; 80; 109; 185; 134; 136; 97;
    13; 56; 64; 177; 167; 22; 181; 95; 140; 17; 58; 1; 1; 139; 194; 14; 81; 238; 204; 88; 95; 23; 73; 148; 141; 45; 14; 12; 11; 238; 216; 31];
   [79; 149; 145; 229; 27; 123; 174; 62; 81; 162; 2; 45; 42; 214; 168; 161; 214; 199; 43; 32; 159; 132; 152; 118; 167; 100; 8; 38; 123; 74; 106; 254;
    134; 150; 37; 131; 196; 54; 25; 195; 188; 43; 116; 73; 50; 1; 1; 94; 233; 119; 116; 147; 171; 60; 24; 45; 34; 167; 167; 248; 150; 18; 77; 170;
    125; 65; 60; 95; 53; 75; 232; 165; 223; 7; 247; 196; 93; 42; 38; 174; 204; 203; 218; 148; 197; 150; 23; 245; 178; 92; 244; 1; 140; 15; 76; 41;
    165; 218; 116; 44; 212; 218; 139; 101; 181; 53; 172; 107; 176; 125; 22; 1; 1; 228; 93; 19; 254; 176; 198; 77; 91; 43; 47; 143; 28; 118; 34; 22;
    46; 190; 193; 228; 241; 235; 108; 210; 66; 239; 74; 102; 237; 135; 75; 205; 30; 234; 14; 148; 176; 93; 141; 210; 125; 109; 142; 109; 221; 128; 96; 100;
    161; 78; 218; 16; 240; 64; 193; 145; 82; 201; 158; 37; 250; 155; 30; 91; 24; 1; 1; 1; 17; 57; 169; 78; 79; 220; 182; 60; 80; 247; 69; 147;
    59; 143; 151; 166; 243; 50; 4; 18; 57; 61; 7; 78; 52; 18; 13; 84; 84; 214; 137; 160; 16; 44; 195; 1; 247; 189; 114; 152; 143; 26; 81; 241;
    252; 168; 36; 24; 5; 131; 22; 141; 237; 2; 56; 230; 222; 229; 20; 20; 9; 69; 44; 157; 59; 70; 206; 103; 117; 229; 188; 195; 225; 191; 92; 175];
   [39; 80; 12; 57; 189; 70; 30; 196; 100; 7; 226; 232; 166; 149; 8; 70; 126; 93; 89; 200; 12; 139; 52; 119; 5; 143; 102; 89; 232; 103; 153; 167;
    145; 83; 115; 196; 108; 192; 90; 148; 38; 19; 51; 176; 152; 244; 90; 86; 142; 209; 106; 217; 37; 218; 176; 118; 210; 243; 254; 11; 173; 12; 57; 69;
    157; 204; 28; 65; 56; 155; 126; 255; 177; 41; 92; 57; 147; 168; 118; 250; 117; 117; 73; 17; 10; 137; 178; 55; 104; 59; 190; 243; 53; 211; 159; 101;
    98; 230; 54; 76; 82; 201; 100; 115; 139; 101; 139; 247; 50; 21; 182; 98; 248; 133; 172; 193; 30; 104; 249; 112; 88; 152; 179; 88; 82; 34; 82; 254;
    56; 225; 17; 67; 14; 246; 3; 114; 30; 23; 64; 114; 198; 206; 138; 255; 31; 116; 237; 75; 59; 91; 132; 21; 133; 101; 245; 91; 221; 137; 179; 157;
    77; 168; 60; 10; 70; 211; 177; 67; 8; 1; 203; 3; 149; 185; 118; 47; 16; 149; 13; 63; 10; 46; 48; 195; 227; 58; 84; 31; 38; 192; 158; 117;
    8; 134; 13; 48; 58; 226; 185; 82; 134; 163; 230; 157; 112; 82; 90; 160; 98; 12; 83; 208; 2; 216; 52; 252; 228; 9; 158; 218; 178; 238; 45; 172;
    93; 54; 178; 240; 157; 37; 236; 83; 251; 101; 77; 209; 63; 118; 158; 45; 14; 166; 129; 67; 8; 94; 126; 221; 40; 255; 109; 219; 242; 33; 82; 204];
   [252; 251; 252; 51; 139; 231; 227; 115; 218; 253; 222; 39; 231; 145; 117; 173; 225; 80; 83; 197; 42; 165; 252; 40; 17; 39; 45; 4; 138; 253; 33; 201;
    62; 234; 41; 186; 232; 131; 81; 91; 102; 113; 89; 49; 117; 61; 61; 211; 181; 44; 58; 210; 18; 7; 156; 12; 82; 101; 201; 247; 73; 212; 215; 23;
    179; 16; 140; 53; 59; 28; 115; 174; 111; 106; 5; 159; 150; 134; 97; 62; 193; 238; 143; 54; 16; 99; 129; 60; 137; 245; 16; 234; 222; 9; 22; 6;
    203; 228; 37; 239; 107; 25; 134; 170; 18; 70; 82; 97; 11; 227; 96; 254; 52; 206; 98; 68; 61; 251; 38; 3; 238; 109; 240; 125; 21; 91; 17; 156;
    166; 142; 29; 146; 95; 3; 73; 24; 118; 172; 10; 29; 68; 139; 211; 153; 137; 245; 136; 182; 62; 9; 154; 141; 70; 37; 181; 111; 208; 32; 114; 135;
    171; 56; 24; 170; 56; 191; 1; 196; 205; 34; 237; 194; 9; 21; 63; 108; 106; 163; 30; 64; 17; 181; 189; 130; 193; 116; 107; 209; 120; 48; 247; 218;
    148; 11; 46; 244; 121; 83; 204; 25; 255; 163; 237; 109; 62; 200; 92; 90; 31; 95; 2; 93; 5; 224; 69; 130; 132; 168; 133; 87; 124; 211; 122; 223;
    200; 244; 73; 19; 205; 64; 112; 141; 109; 105; 28; 194; 212; 228; 218; 64; 115; 183; 115; 30; 27; 30; 115; 10; 7; 241; 241; 135; 167; 117; 75; 134];
   [94; 86; 112; 233; 49; 107; 204; 145; 76; 83; 38; 105; 232; 162; 103; 39; 189; 4; 49; 226; 51; 29; 158; 240; 51; 47; 241; 20; 160; 50; 76; 236;
    174; 17; 135; 25; 101; 177; 60; 86; 141; 63; 190; 189; 205; 245; 50; 77; 46; 21; 64; 124; 6; 242; 122; 77; 13; 19; 218; 70; 208; 24; 0; 39;
    235; 222; 179; 154; 10; 94; 39; 96; 213; 210; 232; 244; 18; 89; 139; 167; 188; 237; 193; 7; 33; 2; 161; 235; 174; 176; 251; 72; 63; 202; 108; 5;
    127; 54; 111; 89; 50; 101; 79; 203; 216; 133; 182; 28; 151; 167; 226; 65; 133; 150; 152; 86; 47; 162; 241; 216; 162; 60; 137; 239; 93; 215; 2; 33;
    227; 250; 55; 112; 166; 135; 198; 192; 243; 31; 125; 200; 7; 124; 216; 88; 177; 213; 200; 240; 2; 51; 234; 242; 4; 238; 196; 138; 190; 172; 213; 116;
    28; 4; 17; 49; 155; 42; 241; 92; 227; 54; 151; 32; 227; 203; 68; 60; 77; 71; 61; 200; 53; 133; 212; 35; 16; 99; 98; 217; 104; 129; 176; 33;
    73; 242; 239; 103; 196; 170; 107; 8; 153; 118; 202; 197; 212; 131; 84; 11; 83; 61; 198; 3; 28; 53; 49; 231; 113; 3; 164; 94; 222; 96; 14; 103;
    152; 18; 94; 11; 128; 220; 213; 149; 107; 255; 243; 125; 47; 38; 220; 161; 5; 78; 210; 33; 22; 61; 234; 47; 133; 6; 193; 252; 166; 254; 22; 174];
   [106; 195; 184; 42; 77; 43; 200; 216; 248; 106; 248; 180; 37; 247; 34; 221; 231; 173; 19; 227; 49; 212; 215; 35; 213; 131; 145; 160; 152; 20; 62; 48;
    31; 139; 72; 26; 34; 159; 208; 157; 124; 0; 230; 7; 99; 120; 251; 25; 79; 212; 66; 214; 21; 69; 75; 7; 47; 2; 246; 68; 209; 5; 31; 249;
    5; 11; 109; 228; 8; 194; 212; 184; 152; 184; 187; 84; 136; 9; 139; 140; 9; 29; 248; 119; 3; 146; 194; 198; 127; 69; 38; 195; 227; 67; 32; 60;
    120; 223; 156; 172; 140; 131; 228; 35; 134; 68; 101; 7; 159; 110; 136; 230; 247; 156; 242; 99; 30; 116; 150; 60; 209; 48; 219; 50; 136; 73; 64; 138;
    69; 56; 234; 169; 186; 198; 18; 127; 236; 201; 3; 182; 18; 88; 69; 158; 164; 59; 137; 63; 5; 57; 193; 152; 208; 244; 88; 20; 90; 7; 89; 172;
    154; 97; 6; 15; 84; 104; 78; 50; 104; 94; 139; 28; 185; 117; 32; 50; 102; 37; 168; 176; 60; 236; 194; 235; 175; 51; 196; 96; 191; 199; 145; 133;
    222; 150; 219; 149; 52; 233; 159; 114; 117; 140; 158; 48; 60; 68; 119; 224; 167; 183; 142; 119; 21; 101; 99; 207; 22; 30; 12; 26; 219; 226; 237; 128;
    153; 103; 222; 104; 198; 11; 220; 120; 124; 245; 131; 112; 76; 76; 228; 62; 122; 107; 125; 144; 23; 77; 227; 178; 106; 90; 232; 77; 232; 76; 92; 112];
   [193; 247; 114; 239; 123; 220; 186; 160; 247; 226; 140; 162; 180; 81; 97; 168; 142; 218; 82; 233; 34; 83; 50; 133; 145; 251; 27; 117; 189; 132; 26; 43;
    212; 88; 162; 172; 35; 13; 75; 27; 53; 8; 201; 3; 205; 124; 246; 183; 134; 246; 95; 101; 6; 154; 115; 51; 218; 59; 66; 175; 2; 227; 168; 40;
    59; 12; 98; 33; 143; 97; 188; 156; 235; 158; 252; 81; 75; 45; 247; 36; 217; 181; 139; 25; 38; 223; 117; 118; 237; 108; 200; 91; 107; 6; 119; 120;
    2; 121; 236; 234; 143; 244; 240; 155; 3; 26; 183; 208; 72; 59; 227; 237; 177; 247; 188; 38; 27; 73; 68; 74; 96; 211; 174; 177; 171; 28; 205; 84;
    76; 92; 208; 9; 33; 27; 39; 84; 236; 74; 144; 102; 172; 81; 184; 111; 165; 32; 234; 135; 48; 77; 110; 46; 219; 107; 20; 92; 116; 17; 249; 71;
    167; 176; 34; 206; 4; 33; 58; 16; 233; 96; 225; 247; 41; 239; 67; 222; 214; 125; 228; 5; 59; 138; 213; 137; 158; 209; 49; 242; 107; 39; 73; 209;
    67; 202; 62; 7; 253; 127; 26; 163; 160; 128; 130; 47; 180; 201; 190; 21; 188; 173; 246; 72; 48; 245; 54; 65; 174; 89; 59; 99; 78; 80; 87; 217;
    86; 93; 29; 150; 38; 240; 183; 253; 236; 197; 234; 57; 179; 117; 129; 129; 26; 179; 196; 180; 47; 118; 97; 39; 203; 185; 143; 158; 187; 104; 50; 253];
   [157; 65; 83; 85; 92; 216; 57; 208; 50; 72; 228; 37; 199; 43; 184; 40; 212; 37; 224; 233; 48; 129; 212; 196; 204; 197; 201; 53; 7; 28; 219; 222;
    51; 149; 48; 52; 46; 181; 32; 16; 4; 40; 148; 39; 151; 139; 54; 133; 238; 54; 77; 228; 37; 253; 4; 190; 218; 130; 208; 220; 193; 170; 31; 43;
    106; 112; 145; 161; 88; 228; 100; 132; 9; 2; 190; 229; 6; 57; 9; 215; 39; 126; 47; 82; 30; 142; 150; 253; 204; 115; 210; 88; 164; 81; 12; 31;
    33; 245; 106; 228; 183; 179; 158; 118; 69; 203; 100; 5; 169; 19; 146; 131; 79; 108; 240; 248; 27; 195; 96; 30; 151; 57; 158; 215; 174; 126; 104; 159;
    178; 54; 17; 48; 52; 171; 8; 134; 98; 69; 85; 45; 28; 222; 206; 233; 26; 90; 72; 140; 1; 177; 11; 42; 246; 157; 54; 123; 84; 120; 251; 150;
    185; 148; 220; 38; 12; 138; 139; 33; 249; 94; 34; 112; 198; 202; 45; 239; 169; 32; 60; 202; 7; 68; 209; 136; 53; 91; 173; 220; 153; 215; 31; 254;
    176; 103; 179; 215; 98; 247; 214; 84; 31; 114; 231; 73; 230; 253; 132; 197; 136; 195; 141; 181; 61; 165; 166; 108; 152; 154; 218; 21; 40; 226; 132; 141;
    218; 114; 149; 70; 47; 46; 178; 116; 143; 15; 23; 30; 172; 191; 20; 152; 108; 163; 99; 60; 27; 219; 14; 238; 198; 32; 55; 98; 120; 216; 109; 215];
   [187; 43; 220; 45; 73; 164; 128; 190; 225; 31; 187; 167; 146; 181; 11; 179; 216; 114; 224; 83; 42; 199; 253; 167; 23; 177; 20; 66; 63; 89; 103; 192;
    120; 221; 107; 213; 224; 116; 133; 75; 106; 227; 131; 97; 172; 6; 6; 99; 106; 152; 195; 226; 35; 198; 218; 163; 51; 153; 107; 103; 69; 210; 33; 165;
    192; 67; 171; 174; 1; 188; 187; 245; 191; 116; 100; 57; 7; 86; 70; 49; 219; 209; 75; 88; 61; 236; 45; 113; 230; 123; 1; 50; 135; 35; 196; 75;
    73; 124; 78; 58; 115; 105; 2; 152; 144; 53; 145; 241; 240; 196; 30; 132; 6; 171; 86; 137; 7; 2; 154; 212; 201; 252; 154; 233; 140; 124; 251; 46;
    111; 33; 120; 35; 38; 60; 1; 182; 199; 228; 214; 6; 11; 12; 229; 94; 84; 32; 77; 35; 50; 28; 17; 231; 129; 171; 242; 249; 8; 88; 168; 76;
    114; 213; 14; 16; 20; 188; 18; 240; 60; 115; 83; 115; 19; 59; 51; 94; 115; 121; 190; 241; 13; 135; 221; 113; 4; 246; 147; 39; 93; 74; 232; 54;
    240; 121; 39; 171; 50; 189; 114; 68; 97; 28; 32; 241; 137; 19; 95; 38; 50; 165; 109; 105; 19; 29; 40; 126; 143; 146; 66; 180; 69; 72; 36; 101;
    105; 167; 7; 114; 231; 231; 66; 232; 157; 165; 159; 102; 217; 22; 166; 228; 108; 238; 142; 178; 54; 171; 22; 35; 56; 21; 131; 55; 181; 219; 75; 116];
   [140; 230; 150; 172; 95; 151; 197; 181; 152; 198; 39; 165; 252; 103; 225; 209; 43; 181; 196; 209; 38; 75; 16; 129; 63; 54; 123; 156; 238; 59; 197; 4;
    52; 185; 114; 239; 113; 41; 248; 254; 119; 125; 194; 28; 203; 189; 202; 122; 2; 226; 229; 178; 57; 78; 137; 255; 42; 14; 197; 67; 181; 88; 204; 53;
    39; 203; 4; 125; 68; 248; 50; 67; 143; 169; 234; 84; 37; 245; 194; 88; 138; 89; 231; 230; 28; 9; 75; 42; 20; 2; 231; 140; 202; 195; 174; 135;
    11; 200; 211; 106; 201; 237; 243; 122; 35; 52; 150; 90; 38; 236; 100; 65; 80; 4; 85; 58; 11; 191; 170; 20; 128; 31; 65; 112; 101; 34; 26; 182;
    247; 165; 92; 48; 110; 2; 154; 140; 128; 91; 192; 122; 8; 28; 119; 210; 64; 90; 5; 54; 56; 181; 99; 98; 180; 105; 128; 12; 168; 64; 44; 193;
    2; 169; 95; 43; 178; 236; 129; 121; 170; 126; 187; 115; 220; 74; 162; 200; 73; 7; 75; 44; 40; 43; 49; 254; 247; 147; 127; 220; 241; 136; 140; 34;
    213; 128; 143; 190; 117; 171; 57; 34; 155; 101; 13; 108; 252; 249; 231; 185; 47; 120; 189; 223; 50; 150; 105; 93; 226; 93; 220; 61; 7; 183; 128; 135;
    11; 166; 211; 44; 59; 0; 189; 157; 3; 49; 61; 84; 152; 18; 37; 193; 135; 83; 201; 5; 56; 120; 247; 228; 176; 156; 199; 55; 243; 165; 32; 210];
   [73; 123; 241; 240; 184; 44; 209; 42; 96; 132; 213; 26; 188; 172; 133; 75; 187; 226; 236; 56; 57; 173; 220; 183; 238; 222; 1; 168; 201; 240; 241; 47;
    164; 193; 206; 68; 30; 82; 189; 65; 235; 90; 34; 253; 53; 169; 222; 118; 195; 239; 45; 176; 32; 228; 7; 59; 156; 82; 230; 4; 59; 5; 49; 233;
    74; 182; 65; 249; 233; 239; 132; 165; 129; 202; 197; 3; 139; 12; 89; 126; 97; 30; 246; 147; 61; 118; 96; 53; 75; 253; 132; 51; 109; 146; 52; 120;
    253; 212; 147; 240; 195; 58; 10; 116; 155; 191; 239; 9; 162; 191; 212; 87; 1; 46; 143; 23; 2; 228; 121; 201; 24; 87; 216; 19; 17; 244; 38; 109;
    110; 210; 51; 27; 134; 98; 55; 65; 176; 199; 57; 10; 223; 77; 172; 120; 183; 63; 5; 191; 54; 14; 162; 192; 253; 161; 60; 119; 107; 151; 115; 100;
    104; 172; 210; 88; 53; 46; 97; 228; 72; 3; 97; 31; 168; 213; 70; 168; 85; 22; 212; 71; 45; 175; 133; 38; 51; 3; 238; 7; 226; 26; 198; 128;
    106; 213; 47; 8; 2; 49; 115; 4; 174; 49; 53; 136; 24; 106; 50; 187; 245; 115; 239; 82; 22; 22; 242; 65; 63; 45; 230; 63; 196; 90; 251; 65;
    39; 74; 131; 48; 164; 151; 194; 198; 20; 76; 163; 128; 161; 30; 158; 61; 233; 129; 8; 94; 59; 1; 1; 1; 141; 44; 82; 101; 50; 107; 229; 67];
   [166; 32; 42; 67; 150; 246; 146; 49; 61; 154; 45; 83; 228; 108; 25; 48; 108; 4; 114; 216; 116; 226; 232; 5; 1; 1; 192; 195; 20; 165; 64; 114;
    204; 43; 42; 117; 130; 53; 192; 94; 168; 17; 1; 20; 138; 1; 115; 42; 1; 208; 134; 145; 83; 99; 19; 244; 78; 41; 1; 1; 213; 88; 174; 26;
    162; 137; 220; 55; 199; 67; 60; 226; 26; 63; 202; 64; 57; 62; 29; 59; 148; 31; 113; 231; 80; 196; 129; 98; 127; 213; 10; 62; 1; 1; 63; 233;
    131; 72; 162; 43; 156; 193; 123; 137; 191; 125; 88; 124; 217; 221; 53; 207; 43; 151; 34; 255; 199; 6; 85; 223; 214; 96; 192; 8; 186; 16; 1; 5;
    200; 138; 25; 8; 56; 128; 60; 170; 218; 190; 32; 189; 80; 151; 94; 142; 243; 5; 41; 177; 116; 85; 152; 231; 38; 148; 126; 123; 249; 155; 115; 2;
    82; 38; 42; 138; 144; 117; 23; 186; 176; 21; 246; 149; 247; 56; 33; 211; 253; 222; 220; 40; 179; 204; 41; 217; 58; 99; 76; 19; 125; 230; 103; 58;
    56; 73; 103; 105; 64; 214; 124; 157; 200; 163; 175; 92; 87; 184; 53; 177; 182; 203; 224; 118; 96; 187; 104; 246; 91; 83; 112; 192; 103; 164; 113; 18;
    158; 104; 142; 148; 185; 201; 245; 32; 64; 26; 126; 119; 183; 35; 188; 52; 80; 155; 105; 131; 168; 181; 217; 58; 145; 127; 176; 211; 110; 101; 102; 1];
   [38; 49; 243; 2; 53; 9; 243; 65; 177; 177; 148; 177; 10; 65; 248; 4; 114; 214; 216; 47; 171; 43; 56; 126; 255; 92; 77; 106; 214; 102; 141; 18;
    1; 1; 216; 191; 47; 126; 168; 70; 156; 233; 135; 182; 122; 212; 189; 187; 145; 128; 142; 254; 201; 232; 70; 77; 185; 135; 70; 8; 120; 199; 251; 246;
    23; 27; 1; 1; 196; 119; 55; 75; 1; 138; 214; 241; 20; 198; 184; 42; 68; 160; 94; 166; 156; 171; 215; 139; 16; 49; 234; 141; 38; 8; 69; 169;
    73; 11; 42; 33; 1; 1; 199; 78; 223; 37; 171; 195; 1; 3; 246; 3; 102; 36; 210; 143; 223; 88; 149; 107; 110; 168; 135; 215; 19; 18; 49; 142;
    65; 110; 192; 35; 2; 2; 1; 1; 1; 135; 8; 118; 87; 30; 17; 29; 133; 118; 91; 230; 189; 1; 127; 215; 229; 187; 28; 5; 166; 58; 75; 142;
    129; 130; 121; 65; 97; 165; 85; 202; 19; 1; 1; 96; 87; 88; 221; 183; 43; 118; 76; 82; 63; 39; 17; 246; 136; 242; 162; 43; 22; 247; 205; 195;
    157; 54; 26; 190; 161; 253; 238; 1; 199; 44; 61; 1; 1; 225; 74; 250; 66; 31; 27; 130; 116; 70; 149; 194; 203; 100; 239; 66; 16; 142; 243; 221;
    41; 210; 48; 135; 156; 140; 106; 77; 132; 195; 119; 189; 31; 1; 1; 80; 170; 196; 205; 23; 115; 239; 123; 78; 34; 72; 48; 253; 90; 30; 124; 131];
   [151; 209; 65; 91; 16; 192; 173; 188; 12; 173; 126; 152; 212; 29; 61; 1; 5; 141; 138; 239; 110; 65; 86; 10; 58; 225; 6; 198; 127; 17; 71; 153;
    74; 205; 192; 120; 181; 97; 129; 97; 252; 234; 116; 56; 134; 41; 107; 110; 3; 162; 221; 2; 95; 198; 54; 23; 26; 40; 90; 156; 57; 114; 37; 164;
    23; 214; 198; 129; 171; 186; 84; 53; 92; 41; 182; 12; 100; 95; 140; 195; 2; 44; 45; 31; 128; 253; 199; 30; 11; 168; 71; 160; 43; 155; 192; 100;
    0; 33; 31; 105; 155; 63; 105; 190; 187; 76; 34; 192; 171; 18; 85; 148; 15; 130; 52; 152; 159; 152; 156; 51; 207; 220; 157; 117; 254; 139; 58; 253;
    96; 234; 138; 29; 212; 203; 168; 127; 161; 43; 236; 188; 79; 102; 229; 12; 43; 115; 239; 195; 45; 74; 126; 185; 136; 87; 79; 188; 158; 201; 165; 155;
    124; 153; 31; 136; 198; 156; 191; 230; 164; 121; 173; 130; 194; 215; 48; 86; 26; 1; 1; 154; 223; 55; 195; 204; 199; 239; 44; 153; 83; 224; 147; 143;
    83; 77; 249; 173; 0; 14; 31; 16; 91; 84; 218; 50; 10; 221; 77; 201; 99; 4; 41; 1; 1; 119; 126; 20; 126; 190; 58; 76; 105; 134; 181; 98;
    161; 56; 174; 78; 120; 239; 0; 110; 189; 247; 239; 131; 54; 15; 233; 148; 153; 207; 218; 105; 57; 1; 1; 176; 252; 16; 189; 1; 183; 99; 62; 17];
   [64; 166; 41; 71; 119; 19; 54; 205; 255; 176; 71; 138; 252; 208; 121; 208; 111; 186; 181; 243; 57; 112; 3; 1; 1; 1; 1; 0; 3; 1; 1; 1;
    0; 1; 1; 1; 1; 1; 1; 1; 1; 1; 253; 128; 150; 152; 0; 1; 1; 1; 1; 1; 1; 148; 249; 177; 12; 177; 67; 58; 51; 1; 107; 20;
    254; 148; 118; 9; 43; 44; 109; 170; 125; 90; 71; 32; 216; 110; 134; 199; 116; 182; 61; 121; 26; 1; 1; 1; 254; 62; 22; 1; 1; 255; 255; 1;
    34; 1; 8; 70; 80; 97; 121; 109; 101; 110; 116; 0; 0; 0; 0; 0; 0; 0; 0; 0; 0; 0; 0; 0; 0; 0; 0; 0; 0; 0; 0; 0;
    0; 0; 0; 1; 1; 0; 1; 1; 1; 1; 148; 249; 177; 12; 177; 67; 58; 51; 1; 107; 20; 254; 148; 118; 9; 43; 44; 109; 170; 125; 90; 71;
    32; 216; 110; 134; 199; 116; 182; 61; 121; 26; 1; 1; 1; 106; 129; 208; 222; 188; 166; 149; 147; 113; 177; 119; 102; 198; 3; 59; 73; 53; 32; 86;
    143; 26; 133; 48; 117; 47; 220; 191; 121; 168; 155; 35; 32; 0; 1; 1; 1; 1; 1; 1; 253; 16; 162; 161; 1; 1; 1; 1; 148; 249; 177; 12;
    177; 67; 58; 51; 1; 107; 20; 254; 148; 118; 9; 43; 44; 109; 170; 125; 90; 71; 32; 216; 110; 134; 199; 116; 182; 61; 121; 26; 1; 1; 1; 218];
   [103; 113; 110; 188; 200; 93; 18; 166; 227; 166; 124; 46; 0; 232; 246; 43; 251; 123; 247; 139; 249; 206; 91; 222; 41; 35; 104; 110; 157; 61; 41; 118;
    215; 168; 171; 193; 32; 178; 67; 208; 207; 200; 167; 16; 66; 146; 17; 123; 248; 178; 209; 41; 35; 219; 13; 55; 16; 151; 219; 156; 79; 72; 19; 1;
    0; 1; 0; 0; 0; 1; 1; 1; 1; 1; 252; 131; 26; 211; 60; 94; 54; 0; 0; 1; 1; 1; 1; 252; 131; 26; 211; 60; 94; 54; 0; 0;
    1; 1; 1; 1; 252; 12; 230; 8; 158; 2; 0; 0; 0; 1; 1; 1; 0; 1; 1; 1; 1; 1; 1; 1; 1; 1; 253; 64; 66; 15; 0; 1;
    1; 1; 1; 1; 1; 72; 166; 121; 209; 111; 227; 217; 98; 163; 24; 99; 141; 101; 106; 156; 39; 10; 160; 12; 103; 95; 97; 25; 207; 203; 212; 76;
    35; 62; 3; 2; 22; 0; 1; 1; 253; 140; 59; 1; 0; 1; 1; 255; 255; 1; 34; 1; 0; 0; 0; 0; 0; 0; 0; 0; 0; 0; 0; 0;
    0; 0; 0; 0; 0; 0; 0; 0; 0; 0; 0; 0; 0; 0; 0; 0; 0; 0; 0; 0; 0; 1; 1; 0; 1; 1; 1; 1; 72; 166; 121; 209;
    111; 227; 217; 98; 163; 24; 99; 141; 101; 106; 156; 39; 10; 160; 12; 103; 95; 97; 25; 207; 203; 212; 76; 35; 62; 3; 2; 22; 0; 1; 1; 91];
   [55; 48; 36; 203; 212; 238; 172; 236; 78; 253; 29; 47; 115; 226; 213; 11; 46; 11; 63; 4; 105; 81; 21; 94; 69; 26; 62; 160; 240; 39; 8; 0;
    1; 1; 1; 1; 1; 1; 254; 232; 3; 1; 1; 1; 72; 166; 121; 209; 111; 227; 217; 98; 163; 24; 99; 141; 101; 106; 156; 39; 10; 160; 12; 103;
    95; 97; 25; 207; 203; 212; 76; 35; 62; 3; 2; 22; 0; 1; 1; 172; 81; 160; 158; 137; 124; 91; 250; 75; 243; 26; 76; 26; 57; 145; 115; 21;
    205; 126; 242; 32; 9; 175; 25; 66; 146; 97; 239; 202; 57; 20; 43; 140; 204; 148; 226; 140; 210; 42; 253; 214; 159; 53; 246; 108; 210; 173; 75; 162;
    109; 55; 235; 226; 152; 251; 31; 80; 30; 75; 167; 67; 229; 15; 16; 1; 0; 1; 0; 0; 0; 1; 1; 1; 1; 1; 252; 96; 206; 134; 141; 3;
    0; 0; 0; 1; 1; 1; 1; 252; 96; 206; 134; 141; 3; 0; 0; 0; 1; 1; 1; 1; 253; 208; 64; 219; 14; 1; 1; 1; 0; 1; 1; 1;
    1; 1; 1; 1; 1; 1; 253; 64; 66; 15; 0; 1; 1; 1; 1; 1; 1; 244; 54; 242; 187; 100; 96; 144; 0; 51; 12; 56; 28; 236; 54; 99;
    196; 217; 33; 173; 77; 126; 31; 189; 23; 254; 170; 85; 215; 121; 86; 24; 63; 1; 1; 1; 253; 141; 150; 1; 0; 1; 1; 255; 255; 1; 34; 1];
   [0; 0; 0; 0; 0; 0; 0; 0; 0; 0; 0; 0; 0; 0; 0; 0; 0; 0; 0; 0; 0; 0; 0; 0; 0; 0; 0; 0; 0; 0; 0; 0;
    0; 1; 1; 0; 1; 1; 1; 1; 244; 54; 242; 187; 100; 96; 144; 0; 51; 12; 56; 28; 236; 54; 99; 196; 217; 33; 173; 77; 126; 31; 189; 23;
    254; 170; 85; 215; 121; 86; 24; 63; 1; 1; 1; 32; 138; 219; 36; 193; 240; 89; 71; 132; 42; 69; 35; 169; 239; 157; 39; 138; 138; 81; 20; 200;
    195; 117; 26; 11; 126; 250; 222; 81; 1; 173; 51; 0; 1; 1; 1; 1; 1; 1; 254; 232; 3; 1; 1; 1; 244; 54; 242; 187; 100; 96; 144; 0;
    51; 12; 56; 28; 236; 54; 99; 196; 217; 33; 173; 77; 126; 31; 189; 23; 254; 170; 85; 215; 121; 86; 24; 63; 1; 1; 1; 189; 46; 39; 129; 75;
    223; 137; 78; 228; 17; 9; 69; 2; 27; 239; 242; 21; 28; 89; 127; 114; 148; 67; 218; 176; 110; 132; 27; 150; 217; 161; 48; 99; 33; 231; 210; 137;
    60; 234; 22; 90; 213; 92; 233; 195; 5; 226; 150; 56; 204; 170; 200; 106; 212; 227; 54; 186; 16; 81; 246; 253; 165; 244; 39; 1; 0; 1; 0; 0;
    0; 1; 1; 1; 1; 1; 252; 247; 209; 21; 139; 230; 0; 0; 0; 1; 1; 1; 1; 252; 247; 209; 21; 139; 230; 0; 0; 0; 1; 1; 1; 1];
   [253; 74; 90; 191; 48; 1; 1; 0; 2; 1; 0; 1; 1; 1; 1; 252; 83; 130; 232; 15; 96; 18; 0; 0; 0; 1; 1; 1; 1; 1; 1; 252;
    83; 157; 159; 16; 96; 18; 0; 0; 0; 0; 1; 24; 97; 86; 253; 163; 22; 50; 75; 148; 75; 74; 43; 85; 221; 216; 203; 21; 195; 45; 32; 182;
    60; 96; 132; 231; 163; 214; 220; 72; 27; 110; 62; 0; 1; 2; 0; 0; 0; 0]].

(** The order of the members of an object is not observed. *)
Fixpoint before (a b : list Z) : bool :=
  match a, b with
  | [], _ => true
  | _, [] => false
  | x :: a, y :: b => (x <? y) || ((x =? y) && before a b)
  end.
Fixpoint insert (k : list Z) (j : json) (m : list (list Z * json)) : list (list Z * json) :=
  match m with
  | [] => [(k, j)]
  | (k', j') :: m' => if before k k' then (k, j) :: m else (k', j') :: insert k j m'
  end.
Fixpoint sorted (j : json) : json :=
  match j with
  | JArr l => JArr (map sorted l)
  | JObj m => JObj (fold_right (fun p => insert (fst p) (snd p)) [] (map (fun p => (fst p, sorted (snd p))) m))
  | _ => j
  end.
(** lib.rs 120-123: the member that is not part of the block is removed *)
Definition loaded (j : json) : json :=
  match j with JObj m => JObj (filter (fun p => negb (key_eqb (fst p) (str_bytes "scheduled_time"))) m) | _ => j end.
Definition back (d : dty) (j : json) : option json :=
  match read false d j with Ok v => match write false d v with Ok j => Some (sorted j) | _ => None end | _ => None end.
Definition bytes_of (j : json) : option (list Z) :=
  match read false jExternalTransition j with
  | Ok v => match to_bytes false ExternalTransitionV1 v with Ok b => Some b | _ => None end
  | _ => None
  end.

(** json.rs 20-37: the two readers agree, compared by what is sent. *)
Example json_binprot_parity : bytes_of (loaded json_77748) = Some block_77748_bytes.
Proof. vm_compute. reflexivity. Qed.
(** json.rs 97-215: the digest of the staged ledger hash, from the JSON text
    through the wire value and the conversion to the state.  The Poseidon hashes
    of the same test are left out. *)
Example non_snark_digest :
  match read false jProtocolState state_113267 with
  | Ok v => match down C_state v with
            | Ok b => Some (digest sha256 (bl_staged (bodyl_blockchain (sl_body (state_of b)))))
            | _ => None
            end
  | _ => None
  end = Some (match hex_decode (str_bytes "1f3f4109e8e81048dfa42023b6292e8cc0c54721a34097e4333c0c89cefc9c26") with Ok l => l | _ => [] end).
Proof. vm_compute. reflexivity. Qed.
(** json.rs 266-270 *)
Example protocol_state_json_serde_roundtrip : back jProtocolState state_113267 = Some (sorted state_113267).
Proof. vm_compute. reflexivity. Qed.
