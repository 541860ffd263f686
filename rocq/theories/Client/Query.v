(** Model of the request texts built by the wasm clients:
    - /repo/apps/wasm/mvp/src/payment.rs:75-151
    - /repo/apps/wasm/mina-berkeley/src/js_exports.rs:75-135 (the same texts; the
      endpoint is an argument there)
    - /repo/network/js/graphql_berkeley_utils.js:20-118
    - /repo/network/js/graphql_v1_utils.js:20-62
    Texts are lists of bytes.  The literals are those of the files, character for
    character. *)
From Coq Require Import ZArith List Bool String.
From Verif Require Import Lib.Res Lib.Bytes Lib.Decimal Lib.Text Json.Json.
Import ListNotations.
Local Open Scope string_scope.
Local Open Scope list_scope.
Local Open Scope Z_scope.

(** payment.rs:78-83 *)
Definition account_info_query (pub_key : list Z) : list Z :=
  str_bytes "query MyQuery {  
            account(publicKey: """ ++
  pub_key ++
  str_bytes """) { balance { total } inferredNonce locked  }
        }".

(** payment.rs:98-103; js_exports.rs:78-83 *)
Definition lock_account_query (pub_key : list Z) : list Z :=
  str_bytes "mutation MyMutation {  
            lockAccount(input: {publicKey: """ ++
  pub_key ++
  str_bytes """}) {    account {      locked    }  }
        }".

(** payment.rs:118-122; js_exports.rs:102-106 *)
Definition unlock_account_query (pub_key password : list Z) : list Z :=
  str_bytes "mutation MyMutation {  
            unlockAccount(input: {publicKey: """ ++
  pub_key ++
  str_bytes """, password: """ ++
  password ++
  str_bytes """}) {    account {      locked    }  }
        }".

(** payment.rs:137-141; js_exports.rs:121-125 *)
Definition send_payment_query (fee amount : Z) (to from : list Z) : list Z :=
  str_bytes "mutation MyMutation {  
            sendPayment(input: {fee: """ ++
  dec fee ++
  str_bytes """, amount: """ ++
  dec amount ++
  str_bytes """, to: """ ++
  to ++
  str_bytes """, from: """ ++
  from ++
  str_bytes """}) {    payment {      id    }  }
        }".

(** graphql_berkeley_utils.js:26-36, one round of the loop *)
Definition account_query (accountQuery account : list Z) : list Z :=
  str_bytes "
            " ++
  accountQuery ++
  str_bytes "
            
            " ++
  account ++
  str_bytes ": account(publicKey: """ ++
  account ++
  str_bytes """) {
                merklePath {
                  left
                  right
                }
                leafHash
              }
            ".

(** graphql_berkeley_utils.js:21-38 *)
Definition account_queries (accounts : list (list Z)) : list Z :=
  fold_left account_query accounts [].

(** graphql_berkeley_utils.js:39-102 *)
Definition best_chain_query (accounts : list (list Z)) : list Z :=
  str_bytes "
    query Query {
        bestChain(maxLength: 1000000) {
          protocolState {
            previousStateHash
            consensusState {
              blockCreator
              blockHeight
              blockStakeWinner
              epoch
              blockchainLength
              coinbaseReceiever
              epochCount
              hasAncestorInSameCheckpointWindow
              lastVrfOutput
              minWindowDensity
              slot
              slotSinceGenesis
              superchargedCoinbase
              totalCurrency
              nextEpochData {
                epochLength
                lockCheckpoint
                seed
                startCheckpoint
                ledger {
                  hash
                  totalCurrency
                }
              }
              stakingEpochData {
                epochLength
                lockCheckpoint
                seed
                startCheckpoint
                ledger {
                  hash
                  totalCurrency
                }
              }
            }
            blockchainState {
              bodyReference
              date
              snarkedLedgerHash
              stagedLedgerAuxHash
              stagedLedgerHash
              stagedLedgerPendingCoinbaseAux
              stagedLedgerPendingCoinbaseHash
              stagedLedgerProofEmitted
              utcDate
            }
          }
        }
        genesisBlock {
          protocolState {
            blockchainState {
              snarkedLedgerHash
            }
          }
        }
        " ++
  account_queries accounts ++
  str_bytes "
      }
    ".

(** graphql_v1_utils.js:38-45 *)
Definition latest_blocks_query (limit : Z) : list Z :=
  str_bytes "
      query Query {
        blocks(limit: " ++
  dec limit ++
  str_bytes ", sortBy: RECEIVEDTIME_DESC) {
          blockHeight
          stateHash
        }
      }      
    ".
