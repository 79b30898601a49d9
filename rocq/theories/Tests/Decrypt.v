(** Generated by tools/gen_tests.py: the tests of src/jwe/decrypt.rs.  Left out: the cases with
    the 128-bit key wrapping of the RFC, which the library never instantiates. *)
From Verif.Model Require Import Prelude Json Serde Base64 Crypto DidDoc Effects Keys Jws Jwe Message FromPrior Pack Unpack.
From Verif.Spec Require Import Sha2.
From Verif.Tests Require Import Real Check.
Open Scope N_scope.

(** src/jwe/mod.rs:31-31 *)
Definition ALICE_KID_X25519_1 : bytes := (B "did:example:alice#key-x25519-1").
(** src/jwe/mod.rs:33-38 *)
Definition ALICE_KEY_X25519_1 : bytes := (B "{
        ""kty"":""OKP"",
        ""d"":""r-jK2cO3taR8LQnJB1_ikLBTAnOtShJOsHXRUWT-aZA"",
        ""crv"":""X25519"",
        ""x"":""avH0O2Y4tqLAq8y9zpianr8ajii5m4F_mICrzNlatXs""
     }").
(** src/jwe/mod.rs:40-44 *)
Definition ALICE_PKEY_X25519_1 : bytes := (B "{
        ""kty"":""OKP"",
        ""crv"":""X25519"",
        ""x"":""avH0O2Y4tqLAq8y9zpianr8ajii5m4F_mICrzNlatXs""
     }").
(** src/jwe/mod.rs:46-46 *)
Definition ALICE_KID_P256_1 : bytes := (B "did:example:alice#key-p256-1").
(** src/jwe/mod.rs:48-54 *)
Definition ALICE_KEY_P256_1 : bytes := (B "{
        ""kty"":""EC"",
        ""d"":""sB0bYtpaXyp-h17dDpMx91N3Du1AdN4z1FUq02GbmLw"",
        ""crv"":""P-256"",
        ""x"":""L0crjMN1g0Ih4sYAJ_nGoHUck2cloltUpUVQDhF2nHE"",
        ""y"":""SxYgE7CmEJYi7IDhgK5jI4ZiajO8jPRZDldVhqFpYoo""
    }").
(** src/jwe/mod.rs:56-61 *)
Definition ALICE_PKEY_P256_1 : bytes := (B "{
        ""kty"":""EC"",
        ""crv"":""P-256"",
        ""x"":""L0crjMN1g0Ih4sYAJ_nGoHUck2cloltUpUVQDhF2nHE"",
        ""y"":""SxYgE7CmEJYi7IDhgK5jI4ZiajO8jPRZDldVhqFpYoo""
    }").
(** src/jwe/mod.rs:63-63 *)
Definition BOB_KID_X25519_1 : bytes := (B "did:example:bob#key-x25519-1").
(** src/jwe/mod.rs:65-70 *)
Definition BOB_KEY_X25519_1 : bytes := (B "{
        ""kty"":""OKP"",
        ""d"":""b9NnuOCB0hm7YGNvaE9DMhwH_wjZA1-gWD6dA0JWdL0"",
        ""crv"":""X25519"",
        ""x"":""GDTrI66K0pFfO54tlCSvfjjNapIs44dzpneBgyx0S3E""
    }").
(** src/jwe/mod.rs:72-76 *)
Definition BOB_PKEY_X25519_1 : bytes := (B "{
        ""kty"":""OKP"",
        ""crv"":""X25519"",
        ""x"":""GDTrI66K0pFfO54tlCSvfjjNapIs44dzpneBgyx0S3E""
    }").
(** src/jwe/mod.rs:78-78 *)
Definition BOB_KID_X25519_2 : bytes := (B "did:example:bob#key-x25519-2").
(** src/jwe/mod.rs:80-85 *)
Definition BOB_KEY_X25519_2 : bytes := (B "{
        ""kty"":""OKP"",
        ""d"":""p-vteoF1gopny1HXywt76xz_uC83UUmrgszsI-ThBKk"",
        ""crv"":""X25519"",
        ""x"":""UT9S3F5ep16KSNBBShU2wh3qSfqYjlasZimn0mB8_VM""
    }").
(** src/jwe/mod.rs:87-91 *)
Definition BOB_PKEY_X25519_2 : bytes := (B "{
        ""kty"":""OKP"",
        ""crv"":""X25519"",
        ""x"":""UT9S3F5ep16KSNBBShU2wh3qSfqYjlasZimn0mB8_VM""
    }").
(** src/jwe/mod.rs:93-93 *)
Definition BOB_KID_X25519_3 : bytes := (B "did:example:bob#key-x25519-3").
(** src/jwe/mod.rs:95-100 *)
Definition BOB_KEY_X25519_3 : bytes := (B "{
        ""kty"":""OKP"",
        ""d"":""f9WJeuQXEItkGM8shN4dqFr5fLQLBasHnWZ-8dPaSo0"",
        ""crv"":""X25519"",
        ""x"":""82k2BTUiywKv49fKLZa-WwDi8RBf0tB0M8bvSAUQ3yY""
    }").
(** src/jwe/mod.rs:102-106 *)
Definition BOB_PKEY_X25519_3 : bytes := (B "{
        ""kty"":""OKP"",
        ""crv"":""X25519"",
        ""x"":""82k2BTUiywKv49fKLZa-WwDi8RBf0tB0M8bvSAUQ3yY""
    }").
(** src/jwe/mod.rs:108-108 *)
Definition BOB_KID_P256_1 : bytes := (B "did:example:bob#key-p256-1").
(** src/jwe/mod.rs:110-116 *)
Definition BOB_KEY_P256_1 : bytes := (B "{
        ""kty"":""EC"",
        ""d"":""PgwHnlXxt8pwR6OCTUwwWx-P51BiLkFZyqHzquKddXQ"",
        ""crv"":""P-256"",
        ""x"":""FQVaTOksf-XsCUrt4J1L2UGvtWaDwpboVlqbKBY2AIo"",
        ""y"":""6XFB9PYo7dyC5ViJSO9uXNYkxTJWn0d_mqJ__ZYhcNY""
    }").
(** src/jwe/mod.rs:118-123 *)
Definition BOB_PKEY_P256_1 : bytes := (B "{
        ""kty"":""EC"",
        ""crv"":""P-256"",
        ""x"":""FQVaTOksf-XsCUrt4J1L2UGvtWaDwpboVlqbKBY2AIo"",
        ""y"":""6XFB9PYo7dyC5ViJSO9uXNYkxTJWn0d_mqJ__ZYhcNY""
    }").
(** src/jwe/mod.rs:125-125 *)
Definition BOB_KID_P256_2 : bytes := (B "did:example:bob#key-p256-2").
(** src/jwe/mod.rs:127-133 *)
Definition BOB_KEY_P256_2 : bytes := (B "{
        ""kty"":""EC"",
        ""d"":""agKz7HS8mIwqO40Q2dwm_Zi70IdYFtonN5sZecQoxYU"",
        ""crv"":""P-256"",
        ""x"":""n0yBsGrwGZup9ywKhzD4KoORGicilzIUyfcXb1CSwe0"",
        ""y"":""ov0buZJ8GHzV128jmCw1CaFbajZoFFmiJDbMrceCXIw""
    }").
(** src/jwe/mod.rs:135-140 *)
Definition BOB_PKEY_P256_2 : bytes := (B "{
        ""kty"":""EC"",
        ""crv"":""P-256"",
        ""x"":""n0yBsGrwGZup9ywKhzD4KoORGicilzIUyfcXb1CSwe0"",
        ""y"":""ov0buZJ8GHzV128jmCw1CaFbajZoFFmiJDbMrceCXIw""
    }").
(** src/jwe/decrypt.rs:989-989 *)
Definition PAYLOAD : bytes := (B "{""id"":""1234567890"",""typ"":""application/didcomm-plain+json"",""type"":""http://example.com/protocols/lets_do_lunch/1.0/proposal"",""from"":""did:example:alice"",""to"":[""did:example:bob""],""created_time"":1516269022,""expires_time"":1516385931,""body"":{""messagespecificattribute"":""and its value""}}").
(** src/jwe/decrypt.rs:991-1018 *)
Definition MSG_ANONCRYPT_X25519_XC20P : bytes := (B "
    {
        ""ciphertext"":""KWS7gJU7TbyJlcT9dPkCw-ohNigGaHSukR9MUqFM0THbCTCNkY-g5tahBFyszlKIKXs7qOtqzYyWbPou2q77XlAeYs93IhF6NvaIjyNqYklvj-OtJt9W2Pj5CLOMdsR0C30wchGoXd6wEQZY4ttbzpxYznqPmJ0b9KW6ZP-l4_DSRYe9B-1oSWMNmqMPwluKbtguC-riy356Xbu2C9ShfWmpmjz1HyJWQhZfczuwkWWlE63g26FMskIZZd_jGpEhPFHKUXCFwbuiw_Iy3R0BIzmXXdK_w7PZMMPbaxssl2UeJmLQgCAP8j8TukxV96EKa6rGgULvlo7qibjJqsS5j03bnbxkuxwbfyu3OxwgVzFWlyHbUH6p"",
        ""protected"":""eyJlcGsiOnsia3R5IjoiT0tQIiwiY3J2IjoiWDI1NTE5IiwieCI6IkpIanNtSVJaQWFCMHpSR193TlhMVjJyUGdnRjAwaGRIYlc1cmo4ZzBJMjQifSwiYXB2IjoiTmNzdUFuclJmUEs2OUEtcmtaMEw5WFdVRzRqTXZOQzNaZzc0QlB6NTNQQSIsInR5cCI6ImFwcGxpY2F0aW9uL2RpZGNvbW0tZW5jcnlwdGVkK2pzb24iLCJlbmMiOiJYQzIwUCIsImFsZyI6IkVDREgtRVMrQTI1NktXIn0"",
        ""recipients"":[
           {
              ""encrypted_key"":""3n1olyBR3nY7ZGAprOx-b7wYAKza6cvOYjNwVg3miTnbLwPP_FmE1A"",
              ""header"":{
                 ""kid"":""did:example:bob#key-x25519-1""
              }
           },
           {
              ""encrypted_key"":""j5eSzn3kCrIkhQAWPnEwrFPMW6hG0zF_y37gUvvc5gvlzsuNX4hXrQ"",
              ""header"":{
                 ""kid"":""did:example:bob#key-x25519-2""
              }
           },
           {
              ""encrypted_key"":""TEWlqlq-ao7Lbynf0oZYhxs7ZB39SUWBCK4qjqQqfeItfwmNyDm73A"",
              ""header"":{
                 ""kid"":""did:example:bob#key-x25519-3""
              }
           }
        ],
        ""tag"":""6ylC_iAs4JvDQzXeY6MuYQ"",
        ""iv"":""ESpmcyGiZpRjc5urDela21TOOTW8Wqd1""
     }
    ").
(** src/jwe/decrypt.rs:1020-1047 *)
Definition MSG_ANONCRYPT_X25519_XC20P_UNDECODABLE_EC : bytes := (B "
    {
        ""ciphertext"":""KWS7gJU7TbyJlcT9dPkCw-ohNigGaHSukR9MUqFM0THbCTCNkY-g5tahBFyszlKIKXs7qOtqzYyWbPou2q77XlAeYs93IhF6NvaIjyNqYklvj-OtJt9W2Pj5CLOMdsR0C30wchGoXd6wEQZY4ttbzpxYznqPmJ0b9KW6ZP-l4_DSRYe9B-1oSWMNmqMPwluKbtguC-riy356Xbu2C9ShfWmpmjz1HyJWQhZfczuwkWWlE63g26FMskIZZd_jGpEhPFHKUXCFwbuiw_Iy3R0BIzmXXdK_w7PZMMPbaxssl2UeJmLQgCAP8j8TukxV96EKa6rGgULvlo7qibjJqsS5j03bnbxkuxwbfyu3OxwgVzFWlyHbUH6p"",
        ""protected"":""eyJlcGsiOnsia3R5IjoiT0tQIiwiY3J2IjoiWDI1NTE5IiwieCI6IkpIanNtSVJaQWFCMHpSR193TlhMVjJyUGdnRjAwaGRIYlc1cmo4ZzBJMjQifSwiYXB2IjoiTmNzdUFuclJmUEs2OUEtcmtaMEw5WFdVRzRqTXZOQzNaZzc0QlB6NTNQQSIsInR5cCI6ImFwcGxpY2F0aW9uL2RpZGNvbW0tZW5jcnlwdGVkK2pzb24iLCJlbmMiOiJYQzIwUCIsImFsZyI6IkVDREgtRVMrQTI1NktXIn0"",
        ""recipients"":[
           {
              ""encrypted_key"":""!3n1olyBR3nY7ZGAprOx-b7wYAKza6cvOYjNwVg3miTnbLwPP_FmE1A"",
              ""header"":{
                 ""kid"":""did:example:bob#key-x25519-1""
              }
           },
           {
              ""encrypted_key"":""j5eSzn3kCrIkhQAWPnEwrFPMW6hG0zF_y37gUvvc5gvlzsuNX4hXrQ"",
              ""header"":{
                 ""kid"":""did:example:bob#key-x25519-2""
              }
           },
           {
              ""encrypted_key"":""TEWlqlq-ao7Lbynf0oZYhxs7ZB39SUWBCK4qjqQqfeItfwmNyDm73A"",
              ""header"":{
                 ""kid"":""did:example:bob#key-x25519-3""
              }
           }
        ],
        ""tag"":""6ylC_iAs4JvDQzXeY6MuYQ"",
        ""iv"":""ESpmcyGiZpRjc5urDela21TOOTW8Wqd1""
     }
    ").
(** src/jwe/decrypt.rs:1049-1076 *)
Definition MSG_ANONCRYPT_X25519_XC20P_UNDECODABLE_TAG : bytes := (B "
    {
        ""ciphertext"":""KWS7gJU7TbyJlcT9dPkCw-ohNigGaHSukR9MUqFM0THbCTCNkY-g5tahBFyszlKIKXs7qOtqzYyWbPou2q77XlAeYs93IhF6NvaIjyNqYklvj-OtJt9W2Pj5CLOMdsR0C30wchGoXd6wEQZY4ttbzpxYznqPmJ0b9KW6ZP-l4_DSRYe9B-1oSWMNmqMPwluKbtguC-riy356Xbu2C9ShfWmpmjz1HyJWQhZfczuwkWWlE63g26FMskIZZd_jGpEhPFHKUXCFwbuiw_Iy3R0BIzmXXdK_w7PZMMPbaxssl2UeJmLQgCAP8j8TukxV96EKa6rGgULvlo7qibjJqsS5j03bnbxkuxwbfyu3OxwgVzFWlyHbUH6p"",
        ""protected"":""eyJlcGsiOnsia3R5IjoiT0tQIiwiY3J2IjoiWDI1NTE5IiwieCI6IkpIanNtSVJaQWFCMHpSR193TlhMVjJyUGdnRjAwaGRIYlc1cmo4ZzBJMjQifSwiYXB2IjoiTmNzdUFuclJmUEs2OUEtcmtaMEw5WFdVRzRqTXZOQzNaZzc0QlB6NTNQQSIsInR5cCI6ImFwcGxpY2F0aW9uL2RpZGNvbW0tZW5jcnlwdGVkK2pzb24iLCJlbmMiOiJYQzIwUCIsImFsZyI6IkVDREgtRVMrQTI1NktXIn0"",
        ""recipients"":[
           {
              ""encrypted_key"":""3n1olyBR3nY7ZGAprOx-b7wYAKza6cvOYjNwVg3miTnbLwPP_FmE1A"",
              ""header"":{
                 ""kid"":""did:example:bob#key-x25519-1""
              }
           },
           {
              ""encrypted_key"":""j5eSzn3kCrIkhQAWPnEwrFPMW6hG0zF_y37gUvvc5gvlzsuNX4hXrQ"",
              ""header"":{
                 ""kid"":""did:example:bob#key-x25519-2""
              }
           },
           {
              ""encrypted_key"":""TEWlqlq-ao7Lbynf0oZYhxs7ZB39SUWBCK4qjqQqfeItfwmNyDm73A"",
              ""header"":{
                 ""kid"":""did:example:bob#key-x25519-3""
              }
           }
        ],
        ""tag"":""!6ylC_iAs4JvDQzXeY6MuYQ"",
        ""iv"":""ESpmcyGiZpRjc5urDela21TOOTW8Wqd1""
     }
    ").
(** src/jwe/decrypt.rs:1078-1105 *)
Definition MSG_ANONCRYPT_X25519_XC20P_UNDECODABLE_IV : bytes := (B "
    {
        ""ciphertext"":""KWS7gJU7TbyJlcT9dPkCw-ohNigGaHSukR9MUqFM0THbCTCNkY-g5tahBFyszlKIKXs7qOtqzYyWbPou2q77XlAeYs93IhF6NvaIjyNqYklvj-OtJt9W2Pj5CLOMdsR0C30wchGoXd6wEQZY4ttbzpxYznqPmJ0b9KW6ZP-l4_DSRYe9B-1oSWMNmqMPwluKbtguC-riy356Xbu2C9ShfWmpmjz1HyJWQhZfczuwkWWlE63g26FMskIZZd_jGpEhPFHKUXCFwbuiw_Iy3R0BIzmXXdK_w7PZMMPbaxssl2UeJmLQgCAP8j8TukxV96EKa6rGgULvlo7qibjJqsS5j03bnbxkuxwbfyu3OxwgVzFWlyHbUH6p"",
        ""protected"":""eyJlcGsiOnsia3R5IjoiT0tQIiwiY3J2IjoiWDI1NTE5IiwieCI6IkpIanNtSVJaQWFCMHpSR193TlhMVjJyUGdnRjAwaGRIYlc1cmo4ZzBJMjQifSwiYXB2IjoiTmNzdUFuclJmUEs2OUEtcmtaMEw5WFdVRzRqTXZOQzNaZzc0QlB6NTNQQSIsInR5cCI6ImFwcGxpY2F0aW9uL2RpZGNvbW0tZW5jcnlwdGVkK2pzb24iLCJlbmMiOiJYQzIwUCIsImFsZyI6IkVDREgtRVMrQTI1NktXIn0"",
        ""recipients"":[
           {
              ""encrypted_key"":""3n1olyBR3nY7ZGAprOx-b7wYAKza6cvOYjNwVg3miTnbLwPP_FmE1A"",
              ""header"":{
                 ""kid"":""did:example:bob#key-x25519-1""
              }
           },
           {
              ""encrypted_key"":""j5eSzn3kCrIkhQAWPnEwrFPMW6hG0zF_y37gUvvc5gvlzsuNX4hXrQ"",
              ""header"":{
                 ""kid"":""did:example:bob#key-x25519-2""
              }
           },
           {
              ""encrypted_key"":""TEWlqlq-ao7Lbynf0oZYhxs7ZB39SUWBCK4qjqQqfeItfwmNyDm73A"",
              ""header"":{
                 ""kid"":""did:example:bob#key-x25519-3""
              }
           }
        ],
        ""tag"":""6ylC_iAs4JvDQzXeY6MuYQ"",
        ""iv"":""!ESpmcyGiZpRjc5urDela21TOOTW8Wqd1""
     }
    ").
(** src/jwe/decrypt.rs:1107-1134 *)
Definition MSG_ANONCRYPT_X25519_XC20P_UNDECODABLE_CIPHERTEXT : bytes := (B "
    {
        ""ciphertext"":""!KWS7gJU7TbyJlcT9dPkCw-ohNigGaHSukR9MUqFM0THbCTCNkY-g5tahBFyszlKIKXs7qOtqzYyWbPou2q77XlAeYs93IhF6NvaIjyNqYklvj-OtJt9W2Pj5CLOMdsR0C30wchGoXd6wEQZY4ttbzpxYznqPmJ0b9KW6ZP-l4_DSRYe9B-1oSWMNmqMPwluKbtguC-riy356Xbu2C9ShfWmpmjz1HyJWQhZfczuwkWWlE63g26FMskIZZd_jGpEhPFHKUXCFwbuiw_Iy3R0BIzmXXdK_w7PZMMPbaxssl2UeJmLQgCAP8j8TukxV96EKa6rGgULvlo7qibjJqsS5j03bnbxkuxwbfyu3OxwgVzFWlyHbUH6p"",
        ""protected"":""eyJlcGsiOnsia3R5IjoiT0tQIiwiY3J2IjoiWDI1NTE5IiwieCI6IkpIanNtSVJaQWFCMHpSR193TlhMVjJyUGdnRjAwaGRIYlc1cmo4ZzBJMjQifSwiYXB2IjoiTmNzdUFuclJmUEs2OUEtcmtaMEw5WFdVRzRqTXZOQzNaZzc0QlB6NTNQQSIsInR5cCI6ImFwcGxpY2F0aW9uL2RpZGNvbW0tZW5jcnlwdGVkK2pzb24iLCJlbmMiOiJYQzIwUCIsImFsZyI6IkVDREgtRVMrQTI1NktXIn0"",
        ""recipients"":[
           {
              ""encrypted_key"":""3n1olyBR3nY7ZGAprOx-b7wYAKza6cvOYjNwVg3miTnbLwPP_FmE1A"",
              ""header"":{
                 ""kid"":""did:example:bob#key-x25519-1""
              }
           },
           {
              ""encrypted_key"":""j5eSzn3kCrIkhQAWPnEwrFPMW6hG0zF_y37gUvvc5gvlzsuNX4hXrQ"",
              ""header"":{
                 ""kid"":""did:example:bob#key-x25519-2""
              }
           },
           {
              ""encrypted_key"":""TEWlqlq-ao7Lbynf0oZYhxs7ZB39SUWBCK4qjqQqfeItfwmNyDm73A"",
              ""header"":{
                 ""kid"":""did:example:bob#key-x25519-3""
              }
           }
        ],
        ""tag"":""6ylC_iAs4JvDQzXeY6MuYQ"",
        ""iv"":""ESpmcyGiZpRjc5urDela21TOOTW8Wqd1""
     }
    ").
(** src/jwe/decrypt.rs:1136-1163 *)
Definition MSG_ANONCRYPT_X25519_XC20P_EPK_DIFFERENT_CURVE : bytes := (B "
    {
        ""ciphertext"":""KWS7gJU7TbyJlcT9dPkCw-ohNigGaHSukR9MUqFM0THbCTCNkY-g5tahBFyszlKIKXs7qOtqzYyWbPou2q77XlAeYs93IhF6NvaIjyNqYklvj-OtJt9W2Pj5CLOMdsR0C30wchGoXd6wEQZY4ttbzpxYznqPmJ0b9KW6ZP-l4_DSRYe9B-1oSWMNmqMPwluKbtguC-riy356Xbu2C9ShfWmpmjz1HyJWQhZfczuwkWWlE63g26FMskIZZd_jGpEhPFHKUXCFwbuiw_Iy3R0BIzmXXdK_w7PZMMPbaxssl2UeJmLQgCAP8j8TukxV96EKa6rGgULvlo7qibjJqsS5j03bnbxkuxwbfyu3OxwgVzFWlyHbUH6p"",
        ""protected"":""eyJlcGsiOnsiY3J2IjoiUC0yNTYiLCJrdHkiOiJFQyIsIngiOiJfTlRkWTQ2b1MzRm00X21JbG1XZUYyT0dTU2x1NTV1MkNJWVYyd3N0aENnIiwieSI6IkZwQnF5aVNzRHQ1bmNveVpNYW9Pci1hTE1yY01hbXRpZlNhSy1FQWtfc2sifSwiYXB2IjoiTmNzdUFuclJmUEs2OUEtcmtaMEw5WFdVRzRqTXZOQzNaZzc0QlB6NTNQQSIsInR5cCI6ImFwcGxpY2F0aW9uL2RpZGNvbW0tZW5jcnlwdGVkK2pzb24iLCJlbmMiOiJYQzIwUCIsImFsZyI6IkVDREgtRVMrQTI1NktXIn0="",
        ""recipients"":[
           {
              ""encrypted_key"":""3n1olyBR3nY7ZGAprOx-b7wYAKza6cvOYjNwVg3miTnbLwPP_FmE1A"",
              ""header"":{
                 ""kid"":""did:example:bob#key-x25519-1""
              }
           },
           {
              ""encrypted_key"":""j5eSzn3kCrIkhQAWPnEwrFPMW6hG0zF_y37gUvvc5gvlzsuNX4hXrQ"",
              ""header"":{
                 ""kid"":""did:example:bob#key-x25519-2""
              }
           },
           {
              ""encrypted_key"":""TEWlqlq-ao7Lbynf0oZYhxs7ZB39SUWBCK4qjqQqfeItfwmNyDm73A"",
              ""header"":{
                 ""kid"":""did:example:bob#key-x25519-3""
              }
           }
        ],
        ""tag"":""6ylC_iAs4JvDQzXeY6MuYQ"",
        ""iv"":""ESpmcyGiZpRjc5urDela21TOOTW8Wqd1""
     }
    ").
(** src/jwe/decrypt.rs:1165-1192 *)
Definition MSG_ANONCRYPT_X25519_XC20P_CHANGED_ENC_KEY : bytes := (B "
    {
        ""ciphertext"":""KWS7gJU7TbyJlcT9dPkCw-ohNigGaHSukR9MUqFM0THbCTCNkY-g5tahBFyszlKIKXs7qOtqzYyWbPou2q77XlAeYs93IhF6NvaIjyNqYklvj-OtJt9W2Pj5CLOMdsR0C30wchGoXd6wEQZY4ttbzpxYznqPmJ0b9KW6ZP-l4_DSRYe9B-1oSWMNmqMPwluKbtguC-riy356Xbu2C9ShfWmpmjz1HyJWQhZfczuwkWWlE63g26FMskIZZd_jGpEhPFHKUXCFwbuiw_Iy3R0BIzmXXdK_w7PZMMPbaxssl2UeJmLQgCAP8j8TukxV96EKa6rGgULvlo7qibjJqsS5j03bnbxkuxwbfyu3OxwgVzFWlyHbUH6p"",
        ""protected"":""eyJlcGsiOnsia3R5IjoiT0tQIiwiY3J2IjoiWDI1NTE5IiwieCI6IkpIanNtSVJaQWFCMHpSR193TlhMVjJyUGdnRjAwaGRIYlc1cmo4ZzBJMjQifSwiYXB2IjoiTmNzdUFuclJmUEs2OUEtcmtaMEw5WFdVRzRqTXZOQzNaZzc0QlB6NTNQQSIsInR5cCI6ImFwcGxpY2F0aW9uL2RpZGNvbW0tZW5jcnlwdGVkK2pzb24iLCJlbmMiOiJYQzIwUCIsImFsZyI6IkVDREgtRVMrQTI1NktXIn0"",
        ""recipients"":[
           {
              ""encrypted_key"":""2n1olyBR3nY7ZGAprOx-b7wYAKza6cvOYjNwVg3miTnbLwPP_FmE1A"",
              ""header"":{
                 ""kid"":""did:example:bob#key-x25519-1""
              }
           },
           {
              ""encrypted_key"":""j5eSzn3kCrIkhQAWPnEwrFPMW6hG0zF_y37gUvvc5gvlzsuNX4hXrQ"",
              ""header"":{
                 ""kid"":""did:example:bob#key-x25519-2""
              }
           },
           {
              ""encrypted_key"":""TEWlqlq-ao7Lbynf0oZYhxs7ZB39SUWBCK4qjqQqfeItfwmNyDm73A"",
              ""header"":{
                 ""kid"":""did:example:bob#key-x25519-3""
              }
           }
        ],
        ""tag"":""6ylC_iAs4JvDQzXeY6MuYQ"",
        ""iv"":""ESpmcyGiZpRjc5urDela21TOOTW8Wqd1""
     }
    ").
(** src/jwe/decrypt.rs:1194-1221 *)
Definition MSG_ANONCRYPT_X25519_XC20P_CHANGED_CIPHERTEXT : bytes := (B "
    {
        ""ciphertext"":""WWS7gJU7TbyJlcT9dPkCw-ohNigGaHSukR9MUqFM0THbCTCNkY-g5tahBFyszlKIKXs7qOtqzYyWbPou2q77XlAeYs93IhF6NvaIjyNqYklvj-OtJt9W2Pj5CLOMdsR0C30wchGoXd6wEQZY4ttbzpxYznqPmJ0b9KW6ZP-l4_DSRYe9B-1oSWMNmqMPwluKbtguC-riy356Xbu2C9ShfWmpmjz1HyJWQhZfczuwkWWlE63g26FMskIZZd_jGpEhPFHKUXCFwbuiw_Iy3R0BIzmXXdK_w7PZMMPbaxssl2UeJmLQgCAP8j8TukxV96EKa6rGgULvlo7qibjJqsS5j03bnbxkuxwbfyu3OxwgVzFWlyHbUH6p"",
        ""protected"":""eyJlcGsiOnsia3R5IjoiT0tQIiwiY3J2IjoiWDI1NTE5IiwieCI6IkpIanNtSVJaQWFCMHpSR193TlhMVjJyUGdnRjAwaGRIYlc1cmo4ZzBJMjQifSwiYXB2IjoiTmNzdUFuclJmUEs2OUEtcmtaMEw5WFdVRzRqTXZOQzNaZzc0QlB6NTNQQSIsInR5cCI6ImFwcGxpY2F0aW9uL2RpZGNvbW0tZW5jcnlwdGVkK2pzb24iLCJlbmMiOiJYQzIwUCIsImFsZyI6IkVDREgtRVMrQTI1NktXIn0"",
        ""recipients"":[
           {
              ""encrypted_key"":""3n1olyBR3nY7ZGAprOx-b7wYAKza6cvOYjNwVg3miTnbLwPP_FmE1A"",
              ""header"":{
                 ""kid"":""did:example:bob#key-x25519-1""
              }
           },
           {
              ""encrypted_key"":""j5eSzn3kCrIkhQAWPnEwrFPMW6hG0zF_y37gUvvc5gvlzsuNX4hXrQ"",
              ""header"":{
                 ""kid"":""did:example:bob#key-x25519-2""
              }
           },
           {
              ""encrypted_key"":""TEWlqlq-ao7Lbynf0oZYhxs7ZB39SUWBCK4qjqQqfeItfwmNyDm73A"",
              ""header"":{
                 ""kid"":""did:example:bob#key-x25519-3""
              }
           }
        ],
        ""tag"":""6ylC_iAs4JvDQzXeY6MuYQ"",
        ""iv"":""ESpmcyGiZpRjc5urDela21TOOTW8Wqd1""
     }
    ").
(** src/jwe/decrypt.rs:1223-1241 *)
Definition MSG_ANONCRYPT_X25519_A256CBC : bytes := (B "
    {
        ""protected"":""eyJ0eXAiOiJhcHBsaWNhdGlvbi9kaWRjb21tLWVuY3J5cHRlZCtqc29uIiwiYWxnIjoiRUNESC1FUytBMjU2S1ciLCJlbmMiOiJBMjU2Q0JDLUhTNTEyIiwiYXB1IjpudWxsLCJhcHYiOiJiV3ZqdDZGM2hsUzlSeE56ZVFCQVBFOGJRdnBiQnhUa3gzS0VOUEY2aTlFIiwiZXBrIjp7ImNydiI6IlgyNTUxOSIsImt0eSI6Ik9LUCIsIngiOiJ3NEpZU0dkc1BXZldkeHZSLS12R2FTTHdZX0dTRTRwVlFhUmRRMEpLU0ZJIn19"",
        ""recipients"":[{
                ""header"":{
                    ""kid"":""did:example:bob#key-x25519-1""
                },
                ""encrypted_key"":""EPhEGPspLjEvJ_v1W5zlJGfg88huhrTEUQCfKzKXmZjp6Y7Vv9Rv0mQgb7XyeZrxKHwgMo5Vxoref9ngeT17WUuHAEEPDteF""
            },{
                ""header"":{
                    ""kid"":""did:example:bob#key-x25519-2""
                },
                ""encrypted_key"":""XchtfMRjcs24QNpWBk81zW74mQFR8ungyaBlpGjaOFHWf5dlCcrGvZLIT-UEY--S_UZEVknNwOOQ-lq4F5MGtkDVOpd-HoxD""
            }],
        ""iv"":""nzmtYMd1crLyY4rRWUAL1A"",
        ""ciphertext"":""bDM_50XL_ArVWWgpiMZO2NFFDZqc0jFBL1RFFESE_saPogffoyDEafYFYD4OlCH9yiEOIHpZZFHrgSx66xrPrkAXfl-d3Ppin2mhx0EgiV4h8yqiN1J_dQ-b_gTsP5djIj3VxMF4mkg34oIRxuaL71DQbhWgsUw-yH16KaBHkXhQnj7T4j6lQeSrP9qNYhMD0UbXcaVzT2AvmwdhRuOuI17DrfwQMVsZnh7Zh9WwJVPwUw7pto0_YpqUacq4kq3z9ZJ1pfFEstVnRwRAosjf0UCwRzCG6nw8OJYDqS3v3_2leRsjuAk-Ro4OMt5mPki0TIBeWl8JP-5rU9kGr2o7DMUtLcNoM5NHOeKiw4BgI04lFRD-azqNXJQwlBV9Uzlq"",
        ""tag"":""PytY0PYyjAXno1ykdMVE75LKdZA6d8yH1Ju0jZf0n8c""
    }
    ").
(** src/jwe/decrypt.rs:1243-1261 *)
Definition MSG_ANONCRYPT_X25519_A256CBC_CHANGED_ENC_KEY : bytes := (B "
    {
        ""protected"":""eyJ0eXAiOiJhcHBsaWNhdGlvbi9kaWRjb21tLWVuY3J5cHRlZCtqc29uIiwiYWxnIjoiRUNESC1FUytBMjU2S1ciLCJlbmMiOiJBMjU2Q0JDLUhTNTEyIiwiYXB1IjpudWxsLCJhcHYiOiJiV3ZqdDZGM2hsUzlSeE56ZVFCQVBFOGJRdnBiQnhUa3gzS0VOUEY2aTlFIiwiZXBrIjp7ImNydiI6IlgyNTUxOSIsImt0eSI6Ik9LUCIsIngiOiJ3NEpZU0dkc1BXZldkeHZSLS12R2FTTHdZX0dTRTRwVlFhUmRRMEpLU0ZJIn19"",
        ""recipients"":[{
                ""header"":{
                    ""kid"":""did:example:bob#key-x25519-1""
                },
                ""encrypted_key"":""PPhEGPspLjEvJ_v1W5zlJGfg88huhrTEUQCfKzKXmZjp6Y7Vv9Rv0mQgb7XyeZrxKHwgMo5Vxoref9ngeT17WUuHAEEPDteF""
            },{
                ""header"":{
                    ""kid"":""did:example:bob#key-x25519-2""
                },
                ""encrypted_key"":""XchtfMRjcs24QNpWBk81zW74mQFR8ungyaBlpGjaOFHWf5dlCcrGvZLIT-UEY--S_UZEVknNwOOQ-lq4F5MGtkDVOpd-HoxD""
            }],
        ""iv"":""nzmtYMd1crLyY4rRWUAL1A"",
        ""ciphertext"":""bDM_50XL_ArVWWgpiMZO2NFFDZqc0jFBL1RFFESE_saPogffoyDEafYFYD4OlCH9yiEOIHpZZFHrgSx66xrPrkAXfl-d3Ppin2mhx0EgiV4h8yqiN1J_dQ-b_gTsP5djIj3VxMF4mkg34oIRxuaL71DQbhWgsUw-yH16KaBHkXhQnj7T4j6lQeSrP9qNYhMD0UbXcaVzT2AvmwdhRuOuI17DrfwQMVsZnh7Zh9WwJVPwUw7pto0_YpqUacq4kq3z9ZJ1pfFEstVnRwRAosjf0UCwRzCG6nw8OJYDqS3v3_2leRsjuAk-Ro4OMt5mPki0TIBeWl8JP-5rU9kGr2o7DMUtLcNoM5NHOeKiw4BgI04lFRD-azqNXJQwlBV9Uzlq"",
        ""tag"":""PytY0PYyjAXno1ykdMVE75LKdZA6d8yH1Ju0jZf0n8c""
    }
    ").
(** src/jwe/decrypt.rs:1263-1281 *)
Definition MSG_ANONCRYPT_X25519_A256CBC_CHANGED_CIPHERTEXT : bytes := (B "
    {
        ""protected"":""eyJ0eXAiOiJhcHBsaWNhdGlvbi9kaWRjb21tLWVuY3J5cHRlZCtqc29uIiwiYWxnIjoiRUNESC1FUytBMjU2S1ciLCJlbmMiOiJBMjU2Q0JDLUhTNTEyIiwiYXB1IjpudWxsLCJhcHYiOiJiV3ZqdDZGM2hsUzlSeE56ZVFCQVBFOGJRdnBiQnhUa3gzS0VOUEY2aTlFIiwiZXBrIjp7ImNydiI6IlgyNTUxOSIsImt0eSI6Ik9LUCIsIngiOiJ3NEpZU0dkc1BXZldkeHZSLS12R2FTTHdZX0dTRTRwVlFhUmRRMEpLU0ZJIn19"",
        ""recipients"":[{
                ""header"":{
                    ""kid"":""did:example:bob#key-x25519-1""
                },
                ""encrypted_key"":""EPhEGPspLjEvJ_v1W5zlJGfg88huhrTEUQCfKzKXmZjp6Y7Vv9Rv0mQgb7XyeZrxKHwgMo5Vxoref9ngeT17WUuHAEEPDteF""
            },{
                ""header"":{
                    ""kid"":""did:example:bob#key-x25519-2""
                },
                ""encrypted_key"":""XchtfMRjcs24QNpWBk81zW74mQFR8ungyaBlpGjaOFHWf5dlCcrGvZLIT-UEY--S_UZEVknNwOOQ-lq4F5MGtkDVOpd-HoxD""
            }],
        ""iv"":""nzmtYMd1crLyY4rRWUAL1A"",
        ""ciphertext"":""DDM_50XL_ArVWWgpiMZO2NFFDZqc0jFBL1RFFESE_saPogffoyDEafYFYD4OlCH9yiEOIHpZZFHrgSx66xrPrkAXfl-d3Ppin2mhx0EgiV4h8yqiN1J_dQ-b_gTsP5djIj3VxMF4mkg34oIRxuaL71DQbhWgsUw-yH16KaBHkXhQnj7T4j6lQeSrP9qNYhMD0UbXcaVzT2AvmwdhRuOuI17DrfwQMVsZnh7Zh9WwJVPwUw7pto0_YpqUacq4kq3z9ZJ1pfFEstVnRwRAosjf0UCwRzCG6nw8OJYDqS3v3_2leRsjuAk-Ro4OMt5mPki0TIBeWl8JP-5rU9kGr2o7DMUtLcNoM5NHOeKiw4BgI04lFRD-azqNXJQwlBV9Uzlq"",
        ""tag"":""PytY0PYyjAXno1ykdMVE75LKdZA6d8yH1Ju0jZf0n8c""
    }
    ").
(** src/jwe/decrypt.rs:1283-1301 *)
Definition MSG_ANONCRYPT_X25519_A256GSM : bytes := (B "
    {
        ""protected"":""eyJ0eXAiOiJhcHBsaWNhdGlvbi9kaWRjb21tLWVuY3J5cHRlZCtqc29uIiwiYWxnIjoiRUNESC1FUytBMjU2S1ciLCJlbmMiOiJBMjU2R0NNIiwiYXB1IjpudWxsLCJhcHYiOiJiV3ZqdDZGM2hsUzlSeE56ZVFCQVBFOGJRdnBiQnhUa3gzS0VOUEY2aTlFIiwiZXBrIjp7ImNydiI6IlgyNTUxOSIsImt0eSI6Ik9LUCIsIngiOiJQRUNaUGJMdGNPYUppTFZXa3drUW1GS1RFQmExRUVBRDZhWDIxLWR3VGlrIn19"",
        ""recipients"":[{
                ""header"":{
                    ""kid"":""did:example:bob#key-x25519-1""
                },
                ""encrypted_key"":""jGcdRf7qopP0eNmvoNxi1pGBoaP3aO4CuJLutWTL0mudQhgzWgageQ""
            },{
                ""header"":{
                    ""kid"":""did:example:bob#key-x25519-2""
                },
                ""encrypted_key"":""VqW0WFtTA_UnMfSwe4cxMDSCwDr65eb8D_xqNufGD01gah8lGd9Glg""
            }],
        ""iv"":""o0gOvMWbBiNzkAFk"",
        ""ciphertext"":""X357FFJqN7dW72W4q_qFSKudBtz9bkbqOfFvANVi5JgqUdVDSGFdUvJxDnPw8EkiF-DY4tYoFaONo5vOUjZniJ9R0Qg9W77pfa-J8ZgNp_lyfu5drRyGXcel95I2F5GuD3ZOGhNkeCMF2BHiOk5hQMcGsM2aJzbSnEnWjrjd0nzFAF6YGOz5UaUxUVJQOVgtzXvvcWgoU8LfGqKe5wm66Ul-PP8OmNSvLjJow0fXg9iP7qU1dwc6Qc2o_Pu80RMNUWw_A_dGaWc_lL4UbO5K7z2oPtqmDI0GTnu4LQHOcaJ3jdy-YyI_yTcnfzrFRPgHnNOhWG0OHQKywiDW5HUVu46MryOk2unqo25UMaInSubThYB3kzAQ"",
        ""tag"":""_kECR4ioqoMVe9m42fdDcQ""
    }
    ").
(** src/jwe/decrypt.rs:1303-1321 *)
Definition MSG_ANONCRYPT_X25519_A256GSM_CHANGED_ENC_KEY : bytes := (B "
    {
        ""protected"":""eyJ0eXAiOiJhcHBsaWNhdGlvbi9kaWRjb21tLWVuY3J5cHRlZCtqc29uIiwiYWxnIjoiRUNESC1FUytBMjU2S1ciLCJlbmMiOiJBMjU2R0NNIiwiYXB1IjpudWxsLCJhcHYiOiJiV3ZqdDZGM2hsUzlSeE56ZVFCQVBFOGJRdnBiQnhUa3gzS0VOUEY2aTlFIiwiZXBrIjp7ImNydiI6IlgyNTUxOSIsImt0eSI6Ik9LUCIsIngiOiJQRUNaUGJMdGNPYUppTFZXa3drUW1GS1RFQmExRUVBRDZhWDIxLWR3VGlrIn19"",
        ""recipients"":[{
                ""header"":{
                    ""kid"":""did:example:bob#key-x25519-1""
                },
                ""encrypted_key"":""GGcdRf7qopP0eNmvoNxi1pGBoaP3aO4CuJLutWTL0mudQhgzWgageQ""
            },{
                ""header"":{
                    ""kid"":""did:example:bob#key-x25519-2""
                },
                ""encrypted_key"":""VqW0WFtTA_UnMfSwe4cxMDSCwDr65eb8D_xqNufGD01gah8lGd9Glg""
            }],
        ""iv"":""o0gOvMWbBiNzkAFk"",
        ""ciphertext"":""X357FFJqN7dW72W4q_qFSKudBtz9bkbqOfFvANVi5JgqUdVDSGFdUvJxDnPw8EkiF-DY4tYoFaONo5vOUjZniJ9R0Qg9W77pfa-J8ZgNp_lyfu5drRyGXcel95I2F5GuD3ZOGhNkeCMF2BHiOk5hQMcGsM2aJzbSnEnWjrjd0nzFAF6YGOz5UaUxUVJQOVgtzXvvcWgoU8LfGqKe5wm66Ul-PP8OmNSvLjJow0fXg9iP7qU1dwc6Qc2o_Pu80RMNUWw_A_dGaWc_lL4UbO5K7z2oPtqmDI0GTnu4LQHOcaJ3jdy-YyI_yTcnfzrFRPgHnNOhWG0OHQKywiDW5HUVu46MryOk2unqo25UMaInSubThYB3kzAQ"",
        ""tag"":""_kECR4ioqoMVe9m42fdDcQ""
    }
    ").
(** src/jwe/decrypt.rs:1323-1341 *)
Definition MSG_ANONCRYPT_X25519_A256GSM_CHANGED_CIPHERTEXT : bytes := (B "
    {
        ""protected"":""eyJ0eXAiOiJhcHBsaWNhdGlvbi9kaWRjb21tLWVuY3J5cHRlZCtqc29uIiwiYWxnIjoiRUNESC1FUytBMjU2S1ciLCJlbmMiOiJBMjU2R0NNIiwiYXB1IjpudWxsLCJhcHYiOiJiV3ZqdDZGM2hsUzlSeE56ZVFCQVBFOGJRdnBiQnhUa3gzS0VOUEY2aTlFIiwiZXBrIjp7ImNydiI6IlgyNTUxOSIsImt0eSI6Ik9LUCIsIngiOiJQRUNaUGJMdGNPYUppTFZXa3drUW1GS1RFQmExRUVBRDZhWDIxLWR3VGlrIn19"",
        ""recipients"":[{
                ""header"":{
                    ""kid"":""did:example:bob#key-x25519-1""
                },
                ""encrypted_key"":""jGcdRf7qopP0eNmvoNxi1pGBoaP3aO4CuJLutWTL0mudQhgzWgageQ""
            },{
                ""header"":{
                    ""kid"":""did:example:bob#key-x25519-2""
                },
                ""encrypted_key"":""VqW0WFtTA_UnMfSwe4cxMDSCwDr65eb8D_xqNufGD01gah8lGd9Glg""
            }],
        ""iv"":""o0gOvMWbBiNzkAFk"",
        ""ciphertext"":""3357FFJqN7dW72W4q_qFSKudBtz9bkbqOfFvANVi5JgqUdVDSGFdUvJxDnPw8EkiF-DY4tYoFaONo5vOUjZniJ9R0Qg9W77pfa-J8ZgNp_lyfu5drRyGXcel95I2F5GuD3ZOGhNkeCMF2BHiOk5hQMcGsM2aJzbSnEnWjrjd0nzFAF6YGOz5UaUxUVJQOVgtzXvvcWgoU8LfGqKe5wm66Ul-PP8OmNSvLjJow0fXg9iP7qU1dwc6Qc2o_Pu80RMNUWw_A_dGaWc_lL4UbO5K7z2oPtqmDI0GTnu4LQHOcaJ3jdy-YyI_yTcnfzrFRPgHnNOhWG0OHQKywiDW5HUVu46MryOk2unqo25UMaInSubThYB3kzAQ"",
        ""tag"":""_kECR4ioqoMVe9m42fdDcQ""
    }
    ").
(** src/jwe/decrypt.rs:1343-1361 *)
Definition MSG_ANONCRYPT_P256_XC20P : bytes := (B "
    {
        ""protected"":""eyJ0eXAiOiJhcHBsaWNhdGlvbi9kaWRjb21tLWVuY3J5cHRlZCtqc29uIiwiYWxnIjoiRUNESC1FUytBMjU2S1ciLCJlbmMiOiJYQzIwUCIsImFwdSI6bnVsbCwiYXB2Ijoiei1McXB2VlhEYl9zR1luM21qUUxwdXUyQ1FMZXdZdVpvVFdPSVhQSDNGTSIsImVwayI6eyJjcnYiOiJQLTI1NiIsImt0eSI6IkVDIiwieCI6IkNVMklaXzEzZ0JhR2VxczRpUm9CclJoOVBHbzBab2lEQlFSNkdHQUJWbmciLCJ5IjoiaDJUTkh1dU5STXZNZW51TDBZcDJsU1h3dzRMNUFpc0ZKSDRXMVVzSlQ5MCJ9fQ"",
        ""recipients"":[{
                ""header"":{
                    ""kid"":""did:example:bob#key-p256-1""
                }
                ,""encrypted_key"":""scQxV9YQ4mQrUHgl6yAnBFDXNZAiIs_15bmoErUmoYm0HtuRclPoQg""
            },{
                ""header"":{
                    ""kid"":""did:example:bob#key-p256-2""
                },
                ""encrypted_key"":""CqZ-HDH2j0NC-eoUueNLKyAuMQXjQyw8bJHYM2f-lxJVm3eXCdmm2g""
            }],
        ""iv"":""Vg1uyuQKrU6Kw8OJK38WCpYFxW0suAP9"",
        ""ciphertext"":""2nIm3xQcFR3HXbUPF1HS_D92OGVDvL0nIi6O5ol5tnMIa09NxJtbVAYIG7ZrkT9314PqXn_Rq77hgGE6FAOgO7aNYLyUJh0JCC_i2p_XOWuk20BYyBsmmRvVpg0DY3I1Lb-Vg1pT9pEy09gsMSLhbfqk0_TFJB1rcqzR8W0YZB5mX_53nMRf1ZatDEg4rDogSekWEGTBnlTNRua8-zoI4573SfgJ-ONt7Z_KbGO-sdRkmqXhfYNcbUyoMF9JSa-kraVuWHZP9hTz8-7R020EXfb4jodMWVOMMAiJYk1Cd7tetHXpLPdtuokaapofmtL_SNftAX2CB6ULf0axrHUNtvUyjAPvpgvSuvQuMrDlaXn16MQJ_q55"",
        ""tag"":""etLTQvKsTvF629fykLiUDg""
    }
    ").
(** src/jwe/decrypt.rs:1363-1381 *)
Definition MSG_ANONCRYPT_P256_XC20P_CHANGED_ENC_KEY : bytes := (B "
    {
        ""protected"":""eyJ0eXAiOiJhcHBsaWNhdGlvbi9kaWRjb21tLWVuY3J5cHRlZCtqc29uIiwiYWxnIjoiRUNESC1FUytBMjU2S1ciLCJlbmMiOiJYQzIwUCIsImFwdSI6bnVsbCwiYXB2Ijoiei1McXB2VlhEYl9zR1luM21qUUxwdXUyQ1FMZXdZdVpvVFdPSVhQSDNGTSIsImVwayI6eyJjcnYiOiJQLTI1NiIsImt0eSI6IkVDIiwieCI6IkNVMklaXzEzZ0JhR2VxczRpUm9CclJoOVBHbzBab2lEQlFSNkdHQUJWbmciLCJ5IjoiaDJUTkh1dU5STXZNZW51TDBZcDJsU1h3dzRMNUFpc0ZKSDRXMVVzSlQ5MCJ9fQ"",
        ""recipients"":[{
                ""header"":{
                    ""kid"":""did:example:bob#key-p256-1""
                }
                ,""encrypted_key"":""ccQxV9YQ4mQrUHgl6yAnBFDXNZAiIs_15bmoErUmoYm0HtuRclPoQg""
            },{
                ""header"":{
                    ""kid"":""did:example:bob#key-p256-2""
                },
                ""encrypted_key"":""CqZ-HDH2j0NC-eoUueNLKyAuMQXjQyw8bJHYM2f-lxJVm3eXCdmm2g""
            }],
        ""iv"":""Vg1uyuQKrU6Kw8OJK38WCpYFxW0suAP9"",
        ""ciphertext"":""2nIm3xQcFR3HXbUPF1HS_D92OGVDvL0nIi6O5ol5tnMIa09NxJtbVAYIG7ZrkT9314PqXn_Rq77hgGE6FAOgO7aNYLyUJh0JCC_i2p_XOWuk20BYyBsmmRvVpg0DY3I1Lb-Vg1pT9pEy09gsMSLhbfqk0_TFJB1rcqzR8W0YZB5mX_53nMRf1ZatDEg4rDogSekWEGTBnlTNRua8-zoI4573SfgJ-ONt7Z_KbGO-sdRkmqXhfYNcbUyoMF9JSa-kraVuWHZP9hTz8-7R020EXfb4jodMWVOMMAiJYk1Cd7tetHXpLPdtuokaapofmtL_SNftAX2CB6ULf0axrHUNtvUyjAPvpgvSuvQuMrDlaXn16MQJ_q55"",
        ""tag"":""etLTQvKsTvF629fykLiUDg""
    }
    ").
(** src/jwe/decrypt.rs:1383-1401 *)
Definition MSG_ANONCRYPT_P256_XC20P_EPK_WRONG_POINT : bytes := (B "
    {
        ""protected"":""eyJ0eXAiOiJhcHBsaWNhdGlvbi9kaWRjb21tLWVuY3J5cHRlZCtqc29uIiwiYWxnIjoiRUNESC1FUytBMjU2S1ciLCJlbmMiOiJYQzIwUCIsImFwdSI6bnVsbCwiYXB2Ijoiei1McXB2VlhEYl9zR1luM21qUUxwdXUyQ1FMZXdZdVpvVFdPSVhQSDNGTSIsImVwayI6eyJjcnYiOiJQLTI1NiIsImt0eSI6IkVDIiwieCI6IkZSQW1UQmljUFZJXy1aRnF2WEJwNzZhV2pZM0gzYlpGZlhocHRUNm1ETnciLCJ5IjoiLXZ0LTFIaHRvVjBwN2xrbGIxTnRvMWRhU0lqQnV3cVZzbGIwcC1uOWRrdyJ9fQ=="",
        ""recipients"":[{
                ""header"":{
                    ""kid"":""did:example:bob#key-p256-1""
                }
                ,""encrypted_key"":""scQxV9YQ4mQrUHgl6yAnBFDXNZAiIs_15bmoErUmoYm0HtuRclPoQg""
            },{
                ""header"":{
                    ""kid"":""did:example:bob#key-p256-2""
                },
                ""encrypted_key"":""CqZ-HDH2j0NC-eoUueNLKyAuMQXjQyw8bJHYM2f-lxJVm3eXCdmm2g""
            }],
        ""iv"":""Vg1uyuQKrU6Kw8OJK38WCpYFxW0suAP9"",
        ""ciphertext"":""2nIm3xQcFR3HXbUPF1HS_D92OGVDvL0nIi6O5ol5tnMIa09NxJtbVAYIG7ZrkT9314PqXn_Rq77hgGE6FAOgO7aNYLyUJh0JCC_i2p_XOWuk20BYyBsmmRvVpg0DY3I1Lb-Vg1pT9pEy09gsMSLhbfqk0_TFJB1rcqzR8W0YZB5mX_53nMRf1ZatDEg4rDogSekWEGTBnlTNRua8-zoI4573SfgJ-ONt7Z_KbGO-sdRkmqXhfYNcbUyoMF9JSa-kraVuWHZP9hTz8-7R020EXfb4jodMWVOMMAiJYk1Cd7tetHXpLPdtuokaapofmtL_SNftAX2CB6ULf0axrHUNtvUyjAPvpgvSuvQuMrDlaXn16MQJ_q55"",
        ""tag"":""etLTQvKsTvF629fykLiUDg""
    }
    ").
(** src/jwe/decrypt.rs:1403-1421 *)
Definition MSG_ANONCRYPT_P256_XC20P_CHANGED_CIPHERTEXT : bytes := (B "
    {
        ""protected"":""eyJ0eXAiOiJhcHBsaWNhdGlvbi9kaWRjb21tLWVuY3J5cHRlZCtqc29uIiwiYWxnIjoiRUNESC1FUytBMjU2S1ciLCJlbmMiOiJYQzIwUCIsImFwdSI6bnVsbCwiYXB2Ijoiei1McXB2VlhEYl9zR1luM21qUUxwdXUyQ1FMZXdZdVpvVFdPSVhQSDNGTSIsImVwayI6eyJjcnYiOiJQLTI1NiIsImt0eSI6IkVDIiwieCI6IkNVMklaXzEzZ0JhR2VxczRpUm9CclJoOVBHbzBab2lEQlFSNkdHQUJWbmciLCJ5IjoiaDJUTkh1dU5STXZNZW51TDBZcDJsU1h3dzRMNUFpc0ZKSDRXMVVzSlQ5MCJ9fQ"",
        ""recipients"":[{
                ""header"":{
                    ""kid"":""did:example:bob#key-p256-1""
                }
                ,""encrypted_key"":""scQxV9YQ4mQrUHgl6yAnBFDXNZAiIs_15bmoErUmoYm0HtuRclPoQg""
            },{
                ""header"":{
                    ""kid"":""did:example:bob#key-p256-2""
                },
                ""encrypted_key"":""CqZ-HDH2j0NC-eoUueNLKyAuMQXjQyw8bJHYM2f-lxJVm3eXCdmm2g""
            }],
        ""iv"":""Vg1uyuQKrU6Kw8OJK38WCpYFxW0suAP9"",
        ""ciphertext"":""nnIm3xQcFR3HXbUPF1HS_D92OGVDvL0nIi6O5ol5tnMIa09NxJtbVAYIG7ZrkT9314PqXn_Rq77hgGE6FAOgO7aNYLyUJh0JCC_i2p_XOWuk20BYyBsmmRvVpg0DY3I1Lb-Vg1pT9pEy09gsMSLhbfqk0_TFJB1rcqzR8W0YZB5mX_53nMRf1ZatDEg4rDogSekWEGTBnlTNRua8-zoI4573SfgJ-ONt7Z_KbGO-sdRkmqXhfYNcbUyoMF9JSa-kraVuWHZP9hTz8-7R020EXfb4jodMWVOMMAiJYk1Cd7tetHXpLPdtuokaapofmtL_SNftAX2CB6ULf0axrHUNtvUyjAPvpgvSuvQuMrDlaXn16MQJ_q55"",
        ""tag"":""etLTQvKsTvF629fykLiUDg""
    }
    ").
(** src/jwe/decrypt.rs:1423-1441 *)
Definition MSG_ANONCRYPT_P256_A256CBC : bytes := (B "
    {
        ""protected"":""eyJ0eXAiOiJhcHBsaWNhdGlvbi9kaWRjb21tLWVuY3J5cHRlZCtqc29uIiwiYWxnIjoiRUNESC1FUytBMjU2S1ciLCJlbmMiOiJBMjU2Q0JDLUhTNTEyIiwiYXB1IjpudWxsLCJhcHYiOiJ6LUxxcHZWWERiX3NHWW4zbWpRTHB1dTJDUUxld1l1Wm9UV09JWFBIM0ZNIiwiZXBrIjp7ImNydiI6IlAtMjU2Iiwia3R5IjoiRUMiLCJ4IjoiLXh2cnltSzFLNnN3R0tLZ2VERUJyQmdhSnhWSFd1R09nTU1wTWc2OFRzYyIsInkiOiJGa3hqeUdzdVlQRVZuS3lSQ1l2a3J2ejl6cno3OTFMX2dCcWtzOWc2Y2R3In19"",
        ""recipients"":[{
                ""header"":{
                    ""kid"":""did:example:bob#key-p256-1""
                },
                ""encrypted_key"":""ReussjPSY0lT5zdj_XZgBTylAxa2yBL4Sc6rM7E42p-PsDJF60sdhAj2tm9Zg6POBI09YAy44Sygdw3rbLvcKshj6M9uD3Nc""
            },{
                ""header"":{
                    ""kid"":""did:example:bob#key-p256-2""
                },
                ""encrypted_key"":""s9jBWrES_9Fvnjxof3EDlDM_i3Ds3ry6pXeIOh2n8kp15L3e6CQ2yyNeEmOwuFhVwfUxuRQbM3mVlKLtySh6UtmyzSm0UZpl""
            }],
        ""iv"":""GIBpOTfWoimvyheRyaDlVQ"",
        ""ciphertext"":""Dk1zcI0w1zyJjaLuaWzbOOLxsaiin1yMqHo2pI--7dJpgNID4YJCbdorekPJO5dcN8JX97DimOsZZyTde5wjZGWhRzTfHwIZT4OK9--gETjifddt2JUk0Dp72lpV35Ie6_5xU8KZEBlcajO5StBWg2sWua3hEpXTq3yJDAEMTp0Sz-CKqMlQ4frqPHJapjOz010-xVIR8cmmLoVOIA2wb5pD3uK8LLYwxUJzR-Eq5dlD6k1TtDCdZQEY38AT7a3QJ4Q49fIkZ7epREn9qLobqZwiFmbnWFfGbGY_1tPZg6eXmCTzqYxqLqXFLMgNLWOHPQPO-G77z1KzzkIbBV7xGuCxofVdjXGhHGGeUh7cymg9OGtAghMLDFvCd3kXT-FS"",
        ""tag"":""8FKQxyMz5f7gojQNK3Jtr5xmI3-12_VA4CJteW3fH0A""
    }
    ").
(** src/jwe/decrypt.rs:1443-1461 *)
Definition MSG_ANONCRYPT_P256_A256CBC_CHANGED_ENC_KEY : bytes := (B "
    {
        ""protected"":""eyJ0eXAiOiJhcHBsaWNhdGlvbi9kaWRjb21tLWVuY3J5cHRlZCtqc29uIiwiYWxnIjoiRUNESC1FUytBMjU2S1ciLCJlbmMiOiJBMjU2Q0JDLUhTNTEyIiwiYXB1IjpudWxsLCJhcHYiOiJ6LUxxcHZWWERiX3NHWW4zbWpRTHB1dTJDUUxld1l1Wm9UV09JWFBIM0ZNIiwiZXBrIjp7ImNydiI6IlAtMjU2Iiwia3R5IjoiRUMiLCJ4IjoiLXh2cnltSzFLNnN3R0tLZ2VERUJyQmdhSnhWSFd1R09nTU1wTWc2OFRzYyIsInkiOiJGa3hqeUdzdVlQRVZuS3lSQ1l2a3J2ejl6cno3OTFMX2dCcWtzOWc2Y2R3In19"",
        ""recipients"":[{
                ""header"":{
                    ""kid"":""did:example:bob#key-p256-1""
                },
                ""encrypted_key"":""eeussjPSY0lT5zdj_XZgBTylAxa2yBL4Sc6rM7E42p-PsDJF60sdhAj2tm9Zg6POBI09YAy44Sygdw3rbLvcKshj6M9uD3Nc""
            },{
                ""header"":{
                    ""kid"":""did:example:bob#key-p256-2""
                },
                ""encrypted_key"":""s9jBWrES_9Fvnjxof3EDlDM_i3Ds3ry6pXeIOh2n8kp15L3e6CQ2yyNeEmOwuFhVwfUxuRQbM3mVlKLtySh6UtmyzSm0UZpl""
            }],
        ""iv"":""GIBpOTfWoimvyheRyaDlVQ"",
        ""ciphertext"":""Dk1zcI0w1zyJjaLuaWzbOOLxsaiin1yMqHo2pI--7dJpgNID4YJCbdorekPJO5dcN8JX97DimOsZZyTde5wjZGWhRzTfHwIZT4OK9--gETjifddt2JUk0Dp72lpV35Ie6_5xU8KZEBlcajO5StBWg2sWua3hEpXTq3yJDAEMTp0Sz-CKqMlQ4frqPHJapjOz010-xVIR8cmmLoVOIA2wb5pD3uK8LLYwxUJzR-Eq5dlD6k1TtDCdZQEY38AT7a3QJ4Q49fIkZ7epREn9qLobqZwiFmbnWFfGbGY_1tPZg6eXmCTzqYxqLqXFLMgNLWOHPQPO-G77z1KzzkIbBV7xGuCxofVdjXGhHGGeUh7cymg9OGtAghMLDFvCd3kXT-FS"",
        ""tag"":""8FKQxyMz5f7gojQNK3Jtr5xmI3-12_VA4CJteW3fH0A""
    }
    ").
(** src/jwe/decrypt.rs:1463-1481 *)
Definition MSG_ANONCRYPT_P256_A256CBC_CHANGED_CIPHERTEXT : bytes := (B "
    {
        ""protected"":""eyJ0eXAiOiJhcHBsaWNhdGlvbi9kaWRjb21tLWVuY3J5cHRlZCtqc29uIiwiYWxnIjoiRUNESC1FUytBMjU2S1ciLCJlbmMiOiJBMjU2Q0JDLUhTNTEyIiwiYXB1IjpudWxsLCJhcHYiOiJ6LUxxcHZWWERiX3NHWW4zbWpRTHB1dTJDUUxld1l1Wm9UV09JWFBIM0ZNIiwiZXBrIjp7ImNydiI6IlAtMjU2Iiwia3R5IjoiRUMiLCJ4IjoiLXh2cnltSzFLNnN3R0tLZ2VERUJyQmdhSnhWSFd1R09nTU1wTWc2OFRzYyIsInkiOiJGa3hqeUdzdVlQRVZuS3lSQ1l2a3J2ejl6cno3OTFMX2dCcWtzOWc2Y2R3In19"",
        ""recipients"":[{
                ""header"":{
                    ""kid"":""did:example:bob#key-p256-1""
                },
                ""encrypted_key"":""ReussjPSY0lT5zdj_XZgBTylAxa2yBL4Sc6rM7E42p-PsDJF60sdhAj2tm9Zg6POBI09YAy44Sygdw3rbLvcKshj6M9uD3Nc""
            },{
                ""header"":{
                    ""kid"":""did:example:bob#key-p256-2""
                },
                ""encrypted_key"":""s9jBWrES_9Fvnjxof3EDlDM_i3Ds3ry6pXeIOh2n8kp15L3e6CQ2yyNeEmOwuFhVwfUxuRQbM3mVlKLtySh6UtmyzSm0UZpl""
            }],
        ""iv"":""GIBpOTfWoimvyheRyaDlVQ"",
        ""ciphertext"":""kk1zcI0w1zyJjaLuaWzbOOLxsaiin1yMqHo2pI--7dJpgNID4YJCbdorekPJO5dcN8JX97DimOsZZyTde5wjZGWhRzTfHwIZT4OK9--gETjifddt2JUk0Dp72lpV35Ie6_5xU8KZEBlcajO5StBWg2sWua3hEpXTq3yJDAEMTp0Sz-CKqMlQ4frqPHJapjOz010-xVIR8cmmLoVOIA2wb5pD3uK8LLYwxUJzR-Eq5dlD6k1TtDCdZQEY38AT7a3QJ4Q49fIkZ7epREn9qLobqZwiFmbnWFfGbGY_1tPZg6eXmCTzqYxqLqXFLMgNLWOHPQPO-G77z1KzzkIbBV7xGuCxofVdjXGhHGGeUh7cymg9OGtAghMLDFvCd3kXT-FS"",
        ""tag"":""8FKQxyMz5f7gojQNK3Jtr5xmI3-12_VA4CJteW3fH0A""
    }
    ").
(** src/jwe/decrypt.rs:1483-1501 *)
Definition MSG_ANONCRYPT_P256_A256GSM : bytes := (B "
    {
        ""protected"":""eyJ0eXAiOiJhcHBsaWNhdGlvbi9kaWRjb21tLWVuY3J5cHRlZCtqc29uIiwiYWxnIjoiRUNESC1FUytBMjU2S1ciLCJlbmMiOiJBMjU2R0NNIiwiYXB1IjpudWxsLCJhcHYiOiJ6LUxxcHZWWERiX3NHWW4zbWpRTHB1dTJDUUxld1l1Wm9UV09JWFBIM0ZNIiwiZXBrIjp7ImNydiI6IlAtMjU2Iiwia3R5IjoiRUMiLCJ4IjoidDZYaDNGTTNna21SZ2dyUTBwMElxb3RDejdNV2tPRWRwNXZRQkNwWW9ZcyIsInkiOiJfNzgzWjRHbGFkQ095VDBFSFczU3FuVldRazNocWlSX2MwVjJGMURZVzhjIn19"",
        ""recipients"":[{
                    ""header"":{
                        ""kid"":""did:example:bob#key-p256-1""
                    },
                    ""encrypted_key"":""ZDH8GpSLzcO3r1Gw-QQPGRCIP3a_LXzeiOCqgecz7-YHBnAPEyF87Q""
                },{
                    ""header"":{
                        ""kid"":""did:example:bob#key-p256-2""
                    },
                    ""encrypted_key"":""J2xoNA3fLYgPVkocnXr4KafSLOhVbMZipRCEkPBuUIF4z2hpP0tdmg""
                }],
        ""iv"":""MR5gOGVOZvqHVO7n"",
        ""ciphertext"":""QdzPSf5z2yrNYYXgfUAe6-7K3QpppzP3rmzkrlBgmmD_ePdcY0riNvhwBm2Bt_oc0ebK6aq-TKkAoI4P__ISe2TH8RwPuc0HjSkUZtjW8Y8x-wnuED9HEX-HuEAZlM2aFuVy3R_104kbwkAeFtrTTN00ylclOr0ldTXXjTsio58j0Yqrq7Iz6VuScYkdVfJStEswfa4e3BEO_vRAKpr2jVsj6HL5RqZUpCF-DWy_pDsu-IRpYinglvLAfkT6O9g8QApLULOdO4r8TlD1ns-Jx9lLTZZLaILSJZSuzrV6kXgwIOUnyKeA6q2NNbddoxwgpxKGfJ8Bk-Fu0uC8UP_xHVZPRiUd9PyFY6e8dcFNoumu7g4iVN7L"",
        ""tag"":""E5tdRcTYnxaf2p5e4wgNGQ""
    }
    ").
(** src/jwe/decrypt.rs:1503-1521 *)
Definition MSG_ANONCRYPT_P256_A256GSM_CHANGED_ENC_KEY : bytes := (B "
    {
        ""protected"":""eyJ0eXAiOiJhcHBsaWNhdGlvbi9kaWRjb21tLWVuY3J5cHRlZCtqc29uIiwiYWxnIjoiRUNESC1FUytBMjU2S1ciLCJlbmMiOiJBMjU2R0NNIiwiYXB1IjpudWxsLCJhcHYiOiJ6LUxxcHZWWERiX3NHWW4zbWpRTHB1dTJDUUxld1l1Wm9UV09JWFBIM0ZNIiwiZXBrIjp7ImNydiI6IlAtMjU2Iiwia3R5IjoiRUMiLCJ4IjoidDZYaDNGTTNna21SZ2dyUTBwMElxb3RDejdNV2tPRWRwNXZRQkNwWW9ZcyIsInkiOiJfNzgzWjRHbGFkQ095VDBFSFczU3FuVldRazNocWlSX2MwVjJGMURZVzhjIn19"",
        ""recipients"":[{
                    ""header"":{
                        ""kid"":""did:example:bob#key-p256-1""
                    },
                    ""encrypted_key"":""DDH8GpSLzcO3r1Gw-QQPGRCIP3a_LXzeiOCqgecz7-YHBnAPEyF87Q""
                },{
                    ""header"":{
                        ""kid"":""did:example:bob#key-p256-2""
                    },
                    ""encrypted_key"":""J2xoNA3fLYgPVkocnXr4KafSLOhVbMZipRCEkPBuUIF4z2hpP0tdmg""
                }],
        ""iv"":""MR5gOGVOZvqHVO7n"",
        ""ciphertext"":""QdzPSf5z2yrNYYXgfUAe6-7K3QpppzP3rmzkrlBgmmD_ePdcY0riNvhwBm2Bt_oc0ebK6aq-TKkAoI4P__ISe2TH8RwPuc0HjSkUZtjW8Y8x-wnuED9HEX-HuEAZlM2aFuVy3R_104kbwkAeFtrTTN00ylclOr0ldTXXjTsio58j0Yqrq7Iz6VuScYkdVfJStEswfa4e3BEO_vRAKpr2jVsj6HL5RqZUpCF-DWy_pDsu-IRpYinglvLAfkT6O9g8QApLULOdO4r8TlD1ns-Jx9lLTZZLaILSJZSuzrV6kXgwIOUnyKeA6q2NNbddoxwgpxKGfJ8Bk-Fu0uC8UP_xHVZPRiUd9PyFY6e8dcFNoumu7g4iVN7L"",
        ""tag"":""E5tdRcTYnxaf2p5e4wgNGQ""
    }
    ").
(** src/jwe/decrypt.rs:1523-1541 *)
Definition MSG_ANONCRYPT_P256_A256GSM_CHANGED_CIPHERTEXT : bytes := (B "
    {
        ""protected"":""eyJ0eXAiOiJhcHBsaWNhdGlvbi9kaWRjb21tLWVuY3J5cHRlZCtqc29uIiwiYWxnIjoiRUNESC1FUytBMjU2S1ciLCJlbmMiOiJBMjU2R0NNIiwiYXB1IjpudWxsLCJhcHYiOiJ6LUxxcHZWWERiX3NHWW4zbWpRTHB1dTJDUUxld1l1Wm9UV09JWFBIM0ZNIiwiZXBrIjp7ImNydiI6IlAtMjU2Iiwia3R5IjoiRUMiLCJ4IjoidDZYaDNGTTNna21SZ2dyUTBwMElxb3RDejdNV2tPRWRwNXZRQkNwWW9ZcyIsInkiOiJfNzgzWjRHbGFkQ095VDBFSFczU3FuVldRazNocWlSX2MwVjJGMURZVzhjIn19"",
        ""recipients"":[{
                    ""header"":{
                        ""kid"":""did:example:bob#key-p256-1""
                    },
                    ""encrypted_key"":""ZDH8GpSLzcO3r1Gw-QQPGRCIP3a_LXzeiOCqgecz7-YHBnAPEyF87Q""
                },{
                    ""header"":{
                        ""kid"":""did:example:bob#key-p256-2""
                    },
                    ""encrypted_key"":""J2xoNA3fLYgPVkocnXr4KafSLOhVbMZipRCEkPBuUIF4z2hpP0tdmg""
                }],
        ""iv"":""MR5gOGVOZvqHVO7n"",
        ""ciphertext"":""ddzPSf5z2yrNYYXgfUAe6-7K3QpppzP3rmzkrlBgmmD_ePdcY0riNvhwBm2Bt_oc0ebK6aq-TKkAoI4P__ISe2TH8RwPuc0HjSkUZtjW8Y8x-wnuED9HEX-HuEAZlM2aFuVy3R_104kbwkAeFtrTTN00ylclOr0ldTXXjTsio58j0Yqrq7Iz6VuScYkdVfJStEswfa4e3BEO_vRAKpr2jVsj6HL5RqZUpCF-DWy_pDsu-IRpYinglvLAfkT6O9g8QApLULOdO4r8TlD1ns-Jx9lLTZZLaILSJZSuzrV6kXgwIOUnyKeA6q2NNbddoxwgpxKGfJ8Bk-Fu0uC8UP_xHVZPRiUd9PyFY6e8dcFNoumu7g4iVN7L"",
        ""tag"":""E5tdRcTYnxaf2p5e4wgNGQ""
    }
    ").
(** src/jwe/decrypt.rs:1543-1570 *)
Definition MSG_AUTHCRYPT_X25519_A256CBC : bytes := (B "
    {
        ""ciphertext"":""MJezmxJ8DzUB01rMjiW6JViSaUhsZBhMvYtezkhmwts1qXWtDB63i4-FHZP6cJSyCI7eU-gqH8lBXO_UVuviWIqnIUrTRLaumanZ4q1dNKAnxNL-dHmb3coOqSvy3ZZn6W17lsVudjw7hUUpMbeMbQ5W8GokK9ZCGaaWnqAzd1ZcuGXDuemWeA8BerQsfQw_IQm-aUKancldedHSGrOjVWgozVL97MH966j3i9CJc3k9jS9xDuE0owoWVZa7SxTmhl1PDetmzLnYIIIt-peJtNYGdpd-FcYxIFycQNRUoFEr77h4GBTLbC-vqbQHJC1vW4O2LEKhnhOAVlGyDYkNbA4DSL-LMwKxenQXRARsKSIMn7z-ZIqTE-VCNj9vbtgR"",
        ""protected"":""eyJlcGsiOnsia3R5IjoiT0tQIiwiY3J2IjoiWDI1NTE5IiwieCI6IkdGY01vcEpsamY0cExaZmNoNGFfR2hUTV9ZQWY2aU5JMWRXREd5VkNhdzAifSwiYXB2IjoiTmNzdUFuclJmUEs2OUEtcmtaMEw5WFdVRzRqTXZOQzNaZzc0QlB6NTNQQSIsInNraWQiOiJkaWQ6ZXhhbXBsZTphbGljZSNrZXkteDI1NTE5LTEiLCJhcHUiOiJaR2xrT21WNFlXMXdiR1U2WVd4cFkyVWphMlY1TFhneU5UVXhPUzB4IiwidHlwIjoiYXBwbGljYXRpb24vZGlkY29tbS1lbmNyeXB0ZWQranNvbiIsImVuYyI6IkEyNTZDQkMtSFM1MTIiLCJhbGciOiJFQ0RILTFQVStBMjU2S1cifQ"",
        ""recipients"":[
           {
              ""encrypted_key"":""o0FJASHkQKhnFo_rTMHTI9qTm_m2mkJp-wv96mKyT5TP7QjBDuiQ0AMKaPI_RLLB7jpyE-Q80Mwos7CvwbMJDhIEBnk2qHVB"",
              ""header"":{
                 ""kid"":""did:example:bob#key-x25519-1""
              }
           },
           {
              ""encrypted_key"":""rYlafW0XkNd8kaXCqVbtGJ9GhwBC3lZ9AihHK4B6J6V2kT7vjbSYuIpr1IlAjvxYQOw08yqEJNIwrPpB0ouDzKqk98FVN7rK"",
              ""header"":{
                 ""kid"":""did:example:bob#key-x25519-2""
              }
           },
           {
              ""encrypted_key"":""aqfxMY2sV-njsVo-_9Ke9QbOf6hxhGrUVh_m-h_Aq530w3e_4IokChfKWG1tVJvXYv_AffY7vxj0k5aIfKZUxiNmBwC_QsNo"",
              ""header"":{
                 ""kid"":""did:example:bob#key-x25519-3""
              }
           }
        ],
        ""tag"":""uYeo7IsZjN7AnvBjUZE5lNryNENbf6_zew_VC-d4b3U"",
        ""iv"":""o02OXDQ6_-sKz2PX_6oyJg""
     }
    ").
(** src/jwe/decrypt.rs:1572-1599 *)
Definition MSG_AUTHCRYPT_X25519_A256CBC_CHANGED_ENC_KEY : bytes := (B "
    {
        ""ciphertext"":""MJezmxJ8DzUB01rMjiW6JViSaUhsZBhMvYtezkhmwts1qXWtDB63i4-FHZP6cJSyCI7eU-gqH8lBXO_UVuviWIqnIUrTRLaumanZ4q1dNKAnxNL-dHmb3coOqSvy3ZZn6W17lsVudjw7hUUpMbeMbQ5W8GokK9ZCGaaWnqAzd1ZcuGXDuemWeA8BerQsfQw_IQm-aUKancldedHSGrOjVWgozVL97MH966j3i9CJc3k9jS9xDuE0owoWVZa7SxTmhl1PDetmzLnYIIIt-peJtNYGdpd-FcYxIFycQNRUoFEr77h4GBTLbC-vqbQHJC1vW4O2LEKhnhOAVlGyDYkNbA4DSL-LMwKxenQXRARsKSIMn7z-ZIqTE-VCNj9vbtgR"",
        ""protected"":""eyJlcGsiOnsia3R5IjoiT0tQIiwiY3J2IjoiWDI1NTE5IiwieCI6IkdGY01vcEpsamY0cExaZmNoNGFfR2hUTV9ZQWY2aU5JMWRXREd5VkNhdzAifSwiYXB2IjoiTmNzdUFuclJmUEs2OUEtcmtaMEw5WFdVRzRqTXZOQzNaZzc0QlB6NTNQQSIsInNraWQiOiJkaWQ6ZXhhbXBsZTphbGljZSNrZXkteDI1NTE5LTEiLCJhcHUiOiJaR2xrT21WNFlXMXdiR1U2WVd4cFkyVWphMlY1TFhneU5UVXhPUzB4IiwidHlwIjoiYXBwbGljYXRpb24vZGlkY29tbS1lbmNyeXB0ZWQranNvbiIsImVuYyI6IkEyNTZDQkMtSFM1MTIiLCJhbGciOiJFQ0RILTFQVStBMjU2S1cifQ"",
        ""recipients"":[
           {
              ""encrypted_key"":""F0FJASHkQKhnFo_rTMHTI9qTm_m2mkJp-wv96mKyT5TP7QjBDuiQ0AMKaPI_RLLB7jpyE-Q80Mwos7CvwbMJDhIEBnk2qHVB"",
              ""header"":{
                 ""kid"":""did:example:bob#key-x25519-1""
              }
           },
           {
              ""encrypted_key"":""rYlafW0XkNd8kaXCqVbtGJ9GhwBC3lZ9AihHK4B6J6V2kT7vjbSYuIpr1IlAjvxYQOw08yqEJNIwrPpB0ouDzKqk98FVN7rK"",
              ""header"":{
                 ""kid"":""did:example:bob#key-x25519-2""
              }
           },
           {
              ""encrypted_key"":""aqfxMY2sV-njsVo-_9Ke9QbOf6hxhGrUVh_m-h_Aq530w3e_4IokChfKWG1tVJvXYv_AffY7vxj0k5aIfKZUxiNmBwC_QsNo"",
              ""header"":{
                 ""kid"":""did:example:bob#key-x25519-3""
              }
           }
        ],
        ""tag"":""uYeo7IsZjN7AnvBjUZE5lNryNENbf6_zew_VC-d4b3U"",
        ""iv"":""o02OXDQ6_-sKz2PX_6oyJg""
     }
    ").
(** src/jwe/decrypt.rs:1601-1628 *)
Definition MSG_AUTHCRYPT_X25519_A256CBC_CHANGED_CIPHERTEXT : bytes := (B "
    {
        ""ciphertext"":""JJezmxJ8DzUB01rMjiW6JViSaUhsZBhMvYtezkhmwts1qXWtDB63i4-FHZP6cJSyCI7eU-gqH8lBXO_UVuviWIqnIUrTRLaumanZ4q1dNKAnxNL-dHmb3coOqSvy3ZZn6W17lsVudjw7hUUpMbeMbQ5W8GokK9ZCGaaWnqAzd1ZcuGXDuemWeA8BerQsfQw_IQm-aUKancldedHSGrOjVWgozVL97MH966j3i9CJc3k9jS9xDuE0owoWVZa7SxTmhl1PDetmzLnYIIIt-peJtNYGdpd-FcYxIFycQNRUoFEr77h4GBTLbC-vqbQHJC1vW4O2LEKhnhOAVlGyDYkNbA4DSL-LMwKxenQXRARsKSIMn7z-ZIqTE-VCNj9vbtgR"",
        ""protected"":""eyJlcGsiOnsia3R5IjoiT0tQIiwiY3J2IjoiWDI1NTE5IiwieCI6IkdGY01vcEpsamY0cExaZmNoNGFfR2hUTV9ZQWY2aU5JMWRXREd5VkNhdzAifSwiYXB2IjoiTmNzdUFuclJmUEs2OUEtcmtaMEw5WFdVRzRqTXZOQzNaZzc0QlB6NTNQQSIsInNraWQiOiJkaWQ6ZXhhbXBsZTphbGljZSNrZXkteDI1NTE5LTEiLCJhcHUiOiJaR2xrT21WNFlXMXdiR1U2WVd4cFkyVWphMlY1TFhneU5UVXhPUzB4IiwidHlwIjoiYXBwbGljYXRpb24vZGlkY29tbS1lbmNyeXB0ZWQranNvbiIsImVuYyI6IkEyNTZDQkMtSFM1MTIiLCJhbGciOiJFQ0RILTFQVStBMjU2S1cifQ"",
        ""recipients"":[
           {
              ""encrypted_key"":""o0FJASHkQKhnFo_rTMHTI9qTm_m2mkJp-wv96mKyT5TP7QjBDuiQ0AMKaPI_RLLB7jpyE-Q80Mwos7CvwbMJDhIEBnk2qHVB"",
              ""header"":{
                 ""kid"":""did:example:bob#key-x25519-1""
              }
           },
           {
              ""encrypted_key"":""rYlafW0XkNd8kaXCqVbtGJ9GhwBC3lZ9AihHK4B6J6V2kT7vjbSYuIpr1IlAjvxYQOw08yqEJNIwrPpB0ouDzKqk98FVN7rK"",
              ""header"":{
                 ""kid"":""did:example:bob#key-x25519-2""
              }
           },
           {
              ""encrypted_key"":""aqfxMY2sV-njsVo-_9Ke9QbOf6hxhGrUVh_m-h_Aq530w3e_4IokChfKWG1tVJvXYv_AffY7vxj0k5aIfKZUxiNmBwC_QsNo"",
              ""header"":{
                 ""kid"":""did:example:bob#key-x25519-3""
              }
           }
        ],
        ""tag"":""uYeo7IsZjN7AnvBjUZE5lNryNENbf6_zew_VC-d4b3U"",
        ""iv"":""o02OXDQ6_-sKz2PX_6oyJg""
     }
    ").
(** src/jwe/decrypt.rs:1630-1647 *)
Definition MSG_AUTHCRYPT_P256_A256CBC : bytes := (B "
    {
        ""protected"":""eyJ0eXAiOiJhcHBsaWNhdGlvbi9kaWRjb21tLWVuY3J5cHRlZCtqc29uIiwiYWxnIjoiRUNESC0xUFUrQTI1NktXIiwiZW5jIjoiQTI1NkNCQy1IUzUxMiIsInNraWQiOiJkaWQ6ZXhhbXBsZTphbGljZSNrZXktcDI1Ni0xIiwiYXB1IjoiWkdsa09tVjRZVzF3YkdVNllXeHBZMlVqYTJWNUxYQXlOVFl0TVEiLCJhcHYiOiJ6LUxxcHZWWERiX3NHWW4zbWpRTHB1dTJDUUxld1l1Wm9UV09JWFBIM0ZNIiwiZXBrIjp7ImNydiI6IlAtMjU2Iiwia3R5IjoiRUMiLCJ4IjoiX05UZFk0Nm9TM0ZtNF9tSWxtV2VGMk9HU1NsdTU1dTJDSVlWMndzdGhDZyIsInkiOiJGcEJxeWlTc0R0NW5jb3laTWFvT3ItYUxNcmNNYW10aWZTYUstRUFrX3NrIn19"",
        ""recipients"":[{
            ""header"":{
                ""kid"":""did:example:bob#key-p256-1""
            },
            ""encrypted_key"":""VokcBeiCnIR5xCpml6oXn2nEmK31hg0aYOWG0EHlgbv19g2oyOPxsxgxuDEkk-oEXj6WNfs_mebxUQLCKpbHh7tTyqnceoh-""
        },{
            ""header"":{
                ""kid"":""did:example:bob#key-p256-2""
            },
            ""encrypted_key"":""LGQRr4jN-DYlR3Vj2NrJOHcT6iZ3FblERiQNd3UxpAmXF9pI9LyG0gWlE9CTEWNN_EK_yvXPg6TCmsVwoA7VNC7tj74oz66t""
        }],
        ""iv"":""7xtMiG3E7Rjhw_6JEo4S7w"",
        ""ciphertext"":""ebalFD4UYdpFi5p4KDjLYfgJubV5byaCV6V-4qvqF74N4OD_zAZDd7rQxWqds67VwYX2Yw9oTYe_H6WivrCKieHFjqC01gUCbFiqS-lqe3O3WFNnwVX-WRNC7Tsha0azlulJECUXlqyKsuqp-VGYcO-OKyRfzuN_KhBbKAlfxVNxbJX-9ecb0ZqtiZRcOGvqrcDRCgQ8ApdcwGelBLs6V0bBIYnsMHkxi1eK4dMmhBpMoKR9GwQxSwBnKEs5BMO-NTRyAWWKHZXraC8nWSBivqGR9TocrD5H0xK5Ys9eUPJr453BbwTTX2BFdZQlrv4zBwHsaqsHdWPhuQyzjmQFgbmOPOtmnwSurVMRO8A1fZtbWiKy9CYqffqL8XyWmH-S"",""tag"":""84reUHzWkfJsr6rtPMEV40gL8wswp2--V-cwmHOQt5o""
    }
    ").
(** src/jwe/decrypt.rs:1649-1666 *)
Definition MSG_AUTHCRYPT_P256_A256CBC_CHANGED_ENC_KEY : bytes := (B "
    {
        ""protected"":""eyJ0eXAiOiJhcHBsaWNhdGlvbi9kaWRjb21tLWVuY3J5cHRlZCtqc29uIiwiYWxnIjoiRUNESC0xUFUrQTI1NktXIiwiZW5jIjoiQTI1NkNCQy1IUzUxMiIsInNraWQiOiJkaWQ6ZXhhbXBsZTphbGljZSNrZXktcDI1Ni0xIiwiYXB1IjoiWkdsa09tVjRZVzF3YkdVNllXeHBZMlVqYTJWNUxYQXlOVFl0TVEiLCJhcHYiOiJ6LUxxcHZWWERiX3NHWW4zbWpRTHB1dTJDUUxld1l1Wm9UV09JWFBIM0ZNIiwiZXBrIjp7ImNydiI6IlAtMjU2Iiwia3R5IjoiRUMiLCJ4IjoiX05UZFk0Nm9TM0ZtNF9tSWxtV2VGMk9HU1NsdTU1dTJDSVlWMndzdGhDZyIsInkiOiJGcEJxeWlTc0R0NW5jb3laTWFvT3ItYUxNcmNNYW10aWZTYUstRUFrX3NrIn19"",
        ""recipients"":[{
            ""header"":{
                ""kid"":""did:example:bob#key-p256-1""
            },
            ""encrypted_key"":""ookcBeiCnIR5xCpml6oXn2nEmK31hg0aYOWG0EHlgbv19g2oyOPxsxgxuDEkk-oEXj6WNfs_mebxUQLCKpbHh7tTyqnceoh-""
        },{
            ""header"":{
                ""kid"":""did:example:bob#key-p256-2""
            },
            ""encrypted_key"":""LGQRr4jN-DYlR3Vj2NrJOHcT6iZ3FblERiQNd3UxpAmXF9pI9LyG0gWlE9CTEWNN_EK_yvXPg6TCmsVwoA7VNC7tj74oz66t""
        }],
        ""iv"":""7xtMiG3E7Rjhw_6JEo4S7w"",
        ""ciphertext"":""ebalFD4UYdpFi5p4KDjLYfgJubV5byaCV6V-4qvqF74N4OD_zAZDd7rQxWqds67VwYX2Yw9oTYe_H6WivrCKieHFjqC01gUCbFiqS-lqe3O3WFNnwVX-WRNC7Tsha0azlulJECUXlqyKsuqp-VGYcO-OKyRfzuN_KhBbKAlfxVNxbJX-9ecb0ZqtiZRcOGvqrcDRCgQ8ApdcwGelBLs6V0bBIYnsMHkxi1eK4dMmhBpMoKR9GwQxSwBnKEs5BMO-NTRyAWWKHZXraC8nWSBivqGR9TocrD5H0xK5Ys9eUPJr453BbwTTX2BFdZQlrv4zBwHsaqsHdWPhuQyzjmQFgbmOPOtmnwSurVMRO8A1fZtbWiKy9CYqffqL8XyWmH-S"",""tag"":""84reUHzWkfJsr6rtPMEV40gL8wswp2--V-cwmHOQt5o""
    }
    ").
(** src/jwe/decrypt.rs:1668-1685 *)
Definition MSG_AUTHCRYPT_P256_A256CBC_CHANGED_CIPHERTEXT : bytes := (B "
    {
        ""protected"":""eyJ0eXAiOiJhcHBsaWNhdGlvbi9kaWRjb21tLWVuY3J5cHRlZCtqc29uIiwiYWxnIjoiRUNESC0xUFUrQTI1NktXIiwiZW5jIjoiQTI1NkNCQy1IUzUxMiIsInNraWQiOiJkaWQ6ZXhhbXBsZTphbGljZSNrZXktcDI1Ni0xIiwiYXB1IjoiWkdsa09tVjRZVzF3YkdVNllXeHBZMlVqYTJWNUxYQXlOVFl0TVEiLCJhcHYiOiJ6LUxxcHZWWERiX3NHWW4zbWpRTHB1dTJDUUxld1l1Wm9UV09JWFBIM0ZNIiwiZXBrIjp7ImNydiI6IlAtMjU2Iiwia3R5IjoiRUMiLCJ4IjoiX05UZFk0Nm9TM0ZtNF9tSWxtV2VGMk9HU1NsdTU1dTJDSVlWMndzdGhDZyIsInkiOiJGcEJxeWlTc0R0NW5jb3laTWFvT3ItYUxNcmNNYW10aWZTYUstRUFrX3NrIn19"",
        ""recipients"":[{
            ""header"":{
                ""kid"":""did:example:bob#key-p256-1""
            },
            ""encrypted_key"":""VokcBeiCnIR5xCpml6oXn2nEmK31hg0aYOWG0EHlgbv19g2oyOPxsxgxuDEkk-oEXj6WNfs_mebxUQLCKpbHh7tTyqnceoh-""
        },{
            ""header"":{
                ""kid"":""did:example:bob#key-p256-2""
            },
            ""encrypted_key"":""LGQRr4jN-DYlR3Vj2NrJOHcT6iZ3FblERiQNd3UxpAmXF9pI9LyG0gWlE9CTEWNN_EK_yvXPg6TCmsVwoA7VNC7tj74oz66t""
        }],
        ""iv"":""7xtMiG3E7Rjhw_6JEo4S7w"",
        ""ciphertext"":""bbalFD4UYdpFi5p4KDjLYfgJubV5byaCV6V-4qvqF74N4OD_zAZDd7rQxWqds67VwYX2Yw9oTYe_H6WivrCKieHFjqC01gUCbFiqS-lqe3O3WFNnwVX-WRNC7Tsha0azlulJECUXlqyKsuqp-VGYcO-OKyRfzuN_KhBbKAlfxVNxbJX-9ecb0ZqtiZRcOGvqrcDRCgQ8ApdcwGelBLs6V0bBIYnsMHkxi1eK4dMmhBpMoKR9GwQxSwBnKEs5BMO-NTRyAWWKHZXraC8nWSBivqGR9TocrD5H0xK5Ys9eUPJr453BbwTTX2BFdZQlrv4zBwHsaqsHdWPhuQyzjmQFgbmOPOtmnwSurVMRO8A1fZtbWiKy9CYqffqL8XyWmH-S"",""tag"":""84reUHzWkfJsr6rtPMEV40gL8wswp2--V-cwmHOQt5o""
    }
    ").
(** src/jwe/decrypt.rs:1687-1708 *)
Definition MSG_ECDH_1PU_APP_B : bytes := (B "
    {
        ""protected"":""eyJhbGciOiJFQ0RILTFQVStBMTI4S1ciLCJlbmMiOiJBMjU2Q0JDLUhTNTEyIiwiYXB1IjoiUVd4cFkyVSIsImFwdiI6IlFtOWlJR0Z1WkNCRGFHRnliR2xsIiwiZXBrIjp7Imt0eSI6Ik9LUCIsImNydiI6IlgyNTUxOSIsIngiOiJrOW9mX2NwQWFqeTBwb1c1Z2FpeFhHczluSGt3ZzFBRnFVQUZhMzlkeUJjIn19"",
        ""recipients"":[
            {
                ""header"":{
                    ""kid"":""bob-key-2""
                },
                ""encrypted_key"":""pOMVA9_PtoRe7xXW1139NzzN1UhiFoio8lGto9cf0t8PyU-sjNXH8-LIRLycq8CHJQbDwvQeU1cSl55cQ0hGezJu2N9IY0QN""
            },
            {
                ""header"":{
                    ""kid"":""2021-05-06""
                },
                ""encrypted_key"": ""56GVudgRLIMEElQ7DpXsijJVRSWUSDNdbWkdV3g0GUNq6hcT_GkxwnxlPIWrTXCqRpVKQC8fe4z3PQ2YH2afvjQ28aiCTWFE""
            }
        ],
        ""iv"":""AAECAwQFBgcICQoLDA0ODw"",
        ""ciphertext"":""Az2IWsISEMDJvyc5XRL-3-d-RgNBOGolCsxFFoUXFYw"",
        ""tag"":""HLb4fTlm8spGmij3RyOs2gJ4DpHM4hhVRwdF_hGb3WQ""
    }
    ").
(** src/jwe/decrypt.rs:1710-1710 *)
Definition PAYLOAD_ECDH_1PU_APP_B : bytes := (B "Three is a magic number.").
(** src/jwe/decrypt.rs:1712-1712 *)
Definition ALICE_KID_ECDH_1PU_APP_B : bytes := (B "Alice").
(** src/jwe/decrypt.rs:1714-1721 *)
Definition ALICE_KEY_ECDH_1PU_APP_B : bytes := (B "
    {
        ""kty"": ""OKP"",
        ""crv"": ""X25519"",
        ""x"": ""Knbm_BcdQr7WIoz-uqit9M0wbcfEr6y-9UfIZ8QnBD4"",
        ""d"": ""i9KuFhSzEBsiv3PKVL5115OCdsqQai5nj_Flzfkw5jU""
    }
    ").
(** src/jwe/decrypt.rs:1723-1723 *)
Definition BOB_KID_ECDH_1PU_APP_B : bytes := (B "bob-key-2").
(** src/jwe/decrypt.rs:1725-1732 *)
Definition BOB_KEY_ECDH_1PU_APP_B : bytes := (B "
    {
        ""kty"": ""OKP"",
        ""crv"": ""X25519"",
        ""x"": ""BT7aR0ItXfeDAldeeOlXL_wXqp-j5FltT0vRSG16kRw"",
        ""d"": ""1gDirl_r_Y3-qUa3WXHgEXrrEHngWThU3c9zj9A2uBg""
    }
    ").
(** src/jwe/decrypt.rs:1734-1734 *)
Definition CHARLIE_KID_ECDH_1PU_APP_B : bytes := (B "2021-05-06").
(** src/jwe/decrypt.rs:1736-1743 *)
Definition CHARLIE_KEY_ECDH_1PU_APP_B : bytes := (B "
    {
        ""kty"": ""OKP"",
        ""crv"": ""X25519"",
        ""x"": ""q-LsvU772uV_2sPJhfAIq-3vnKNVefNoIlvyvg1hrnE"",
        ""d"": ""Jcv8gklhMjC0b-lsk5onBbppWAx5ncNtbM63Jr9xBQE""
    }
    ").
(** src/jwe/decrypt.rs:115 *)
Definition r_decrypt_works_3 := Eval vm_compute in is_ok bytes_dec (decrypt_text CXC20P KdfEs KX25519 None (BOB_KID_X25519_1, BOB_KEY_X25519_1) MSG_ANONCRYPT_X25519_XC20P) PAYLOAD.
Example decrypt_works_3 : r_decrypt_works_3 = true. Proof. reflexivity. Qed.
(** src/jwe/decrypt.rs:115 *)
Definition r_decrypt_works_4 := Eval vm_compute in is_ok bytes_dec (decrypt_text CXC20P KdfEs KX25519 None (BOB_KID_X25519_2, BOB_KEY_X25519_2) MSG_ANONCRYPT_X25519_XC20P) PAYLOAD.
Example decrypt_works_4 : r_decrypt_works_4 = true. Proof. reflexivity. Qed.
(** src/jwe/decrypt.rs:115 *)
Definition r_decrypt_works_5 := Eval vm_compute in is_ok bytes_dec (decrypt_text CXC20P KdfEs KX25519 None (BOB_KID_X25519_3, BOB_KEY_X25519_3) MSG_ANONCRYPT_X25519_XC20P) PAYLOAD.
Example decrypt_works_5 : r_decrypt_works_5 = true. Proof. reflexivity. Qed.
(** src/jwe/decrypt.rs:115 *)
Definition r_decrypt_works_6 := Eval vm_compute in is_ok bytes_dec (decrypt_text CA256CbcHs512 KdfEs KX25519 None (BOB_KID_X25519_1, BOB_KEY_X25519_1) MSG_ANONCRYPT_X25519_A256CBC) PAYLOAD.
Example decrypt_works_6 : r_decrypt_works_6 = true. Proof. reflexivity. Qed.
(** src/jwe/decrypt.rs:115 *)
Definition r_decrypt_works_7 := Eval vm_compute in is_ok bytes_dec (decrypt_text CA256CbcHs512 KdfEs KX25519 None (BOB_KID_X25519_2, BOB_KEY_X25519_2) MSG_ANONCRYPT_X25519_A256CBC) PAYLOAD.
Example decrypt_works_7 : r_decrypt_works_7 = true. Proof. reflexivity. Qed.
(** src/jwe/decrypt.rs:115 *)
Definition r_decrypt_works_8 := Eval vm_compute in is_ok bytes_dec (decrypt_text CA256Gcm KdfEs KX25519 None (BOB_KID_X25519_1, BOB_KEY_X25519_1) MSG_ANONCRYPT_X25519_A256GSM) PAYLOAD.
Example decrypt_works_8 : r_decrypt_works_8 = true. Proof. reflexivity. Qed.
(** src/jwe/decrypt.rs:115 *)
Definition r_decrypt_works_9 := Eval vm_compute in is_ok bytes_dec (decrypt_text CA256Gcm KdfEs KX25519 None (BOB_KID_X25519_2, BOB_KEY_X25519_2) MSG_ANONCRYPT_X25519_A256GSM) PAYLOAD.
Example decrypt_works_9 : r_decrypt_works_9 = true. Proof. reflexivity. Qed.
(** src/jwe/decrypt.rs:115 *)
Definition r_decrypt_works_10 := Eval vm_compute in is_ok bytes_dec (decrypt_text CXC20P KdfEs KP256 None (BOB_KID_P256_1, BOB_KEY_P256_1) MSG_ANONCRYPT_P256_XC20P) PAYLOAD.
Example decrypt_works_10 : r_decrypt_works_10 = true. Proof. reflexivity. Qed.
(** src/jwe/decrypt.rs:115 *)
Definition r_decrypt_works_11 := Eval vm_compute in is_ok bytes_dec (decrypt_text CXC20P KdfEs KP256 None (BOB_KID_P256_2, BOB_KEY_P256_2) MSG_ANONCRYPT_P256_XC20P) PAYLOAD.
Example decrypt_works_11 : r_decrypt_works_11 = true. Proof. reflexivity. Qed.
(** src/jwe/decrypt.rs:115 *)
Definition r_decrypt_works_12 := Eval vm_compute in is_ok bytes_dec (decrypt_text CA256CbcHs512 KdfEs KP256 None (BOB_KID_P256_1, BOB_KEY_P256_1) MSG_ANONCRYPT_P256_A256CBC) PAYLOAD.
Example decrypt_works_12 : r_decrypt_works_12 = true. Proof. reflexivity. Qed.
(** src/jwe/decrypt.rs:115 *)
Definition r_decrypt_works_13 := Eval vm_compute in is_ok bytes_dec (decrypt_text CA256CbcHs512 KdfEs KP256 None (BOB_KID_P256_2, BOB_KEY_P256_2) MSG_ANONCRYPT_P256_A256CBC) PAYLOAD.
Example decrypt_works_13 : r_decrypt_works_13 = true. Proof. reflexivity. Qed.
(** src/jwe/decrypt.rs:115 *)
Definition r_decrypt_works_14 := Eval vm_compute in is_ok bytes_dec (decrypt_text CA256Gcm KdfEs KP256 None (BOB_KID_P256_1, BOB_KEY_P256_1) MSG_ANONCRYPT_P256_A256GSM) PAYLOAD.
Example decrypt_works_14 : r_decrypt_works_14 = true. Proof. reflexivity. Qed.
(** src/jwe/decrypt.rs:115 *)
Definition r_decrypt_works_15 := Eval vm_compute in is_ok bytes_dec (decrypt_text CA256Gcm KdfEs KP256 None (BOB_KID_P256_2, BOB_KEY_P256_2) MSG_ANONCRYPT_P256_A256GSM) PAYLOAD.
Example decrypt_works_15 : r_decrypt_works_15 = true. Proof. reflexivity. Qed.
(** src/jwe/decrypt.rs:115 *)
Definition r_decrypt_works_16 := Eval vm_compute in is_ok bytes_dec (decrypt_text CA256CbcHs512 Kdf1pu KX25519 (Some (ALICE_KID_X25519_1, ALICE_PKEY_X25519_1)) (BOB_KID_X25519_1, BOB_KEY_X25519_1) MSG_AUTHCRYPT_X25519_A256CBC) PAYLOAD.
Example decrypt_works_16 : r_decrypt_works_16 = true. Proof. reflexivity. Qed.
(** src/jwe/decrypt.rs:115 *)
Definition r_decrypt_works_17 := Eval vm_compute in is_ok bytes_dec (decrypt_text CA256CbcHs512 Kdf1pu KX25519 (Some (ALICE_KID_X25519_1, ALICE_PKEY_X25519_1)) (BOB_KID_X25519_2, BOB_KEY_X25519_2) MSG_AUTHCRYPT_X25519_A256CBC) PAYLOAD.
Example decrypt_works_17 : r_decrypt_works_17 = true. Proof. reflexivity. Qed.
(** src/jwe/decrypt.rs:115 *)
Definition r_decrypt_works_18 := Eval vm_compute in is_ok bytes_dec (decrypt_text CA256CbcHs512 Kdf1pu KP256 (Some (ALICE_KID_P256_1, ALICE_PKEY_P256_1)) (BOB_KID_P256_1, BOB_KEY_P256_1) MSG_AUTHCRYPT_P256_A256CBC) PAYLOAD.
Example decrypt_works_18 : r_decrypt_works_18 = true. Proof. reflexivity. Qed.
(** src/jwe/decrypt.rs:115 *)
Definition r_decrypt_works_19 := Eval vm_compute in is_ok bytes_dec (decrypt_text CA256CbcHs512 Kdf1pu KP256 (Some (ALICE_KID_P256_1, ALICE_PKEY_P256_1)) (BOB_KID_P256_2, BOB_KEY_P256_2) MSG_AUTHCRYPT_P256_A256CBC) PAYLOAD.
Example decrypt_works_19 : r_decrypt_works_19 = true. Proof. reflexivity. Qed.
(** src/jwe/decrypt.rs:316 *)
Definition r_decrypt_works_authcrypt_different_skid_1 := Eval vm_compute in err_of (decrypt_text CA256CbcHs512 Kdf1pu KP256 (Some (ALICE_KID_X25519_1, ALICE_PKEY_P256_1)) (BOB_KID_P256_1, BOB_KEY_P256_1) MSG_AUTHCRYPT_P256_A256CBC).
Example decrypt_works_authcrypt_different_skid_1 : r_decrypt_works_authcrypt_different_skid_1 = Some InvalidState. Proof. reflexivity. Qed.
(** src/jwe/decrypt.rs:334 *)
Definition r_decrypt_works_authcrypt_no_skid_1 := Eval vm_compute in err_of (decrypt_text CA256CbcHs512 Kdf1pu KP256 None (BOB_KID_P256_1, BOB_KEY_P256_1) MSG_AUTHCRYPT_P256_A256CBC).
Example decrypt_works_authcrypt_no_skid_1 : r_decrypt_works_authcrypt_no_skid_1 = Some InvalidState. Proof. reflexivity. Qed.
(** src/jwe/decrypt.rs:352 *)
Definition r_decrypt_works_anoncrypt_skid_present_1 := Eval vm_compute in err_of (decrypt_text CA256CbcHs512 KdfEs KP256 (Some (ALICE_KID_P256_1, ALICE_PKEY_P256_1)) (BOB_KID_P256_1, BOB_KEY_P256_1) MSG_ANONCRYPT_P256_A256CBC).
Example decrypt_works_anoncrypt_skid_present_1 : r_decrypt_works_anoncrypt_skid_present_1 = Some InvalidState. Proof. reflexivity. Qed.
(** src/jwe/decrypt.rs:366 *)
Definition r_decrypt_works_recipient_not_found_1 := Eval vm_compute in err_of (decrypt_text CA256CbcHs512 Kdf1pu KP256 (Some (ALICE_KID_P256_1, ALICE_PKEY_P256_1)) (BOB_KID_X25519_1, BOB_KEY_P256_1) MSG_AUTHCRYPT_P256_A256CBC).
Example decrypt_works_recipient_not_found_1 : r_decrypt_works_recipient_not_found_1 = Some InvalidState. Proof. reflexivity. Qed.
(** src/jwe/decrypt.rs:384 *)
Definition r_decrypt_works_undecodable_encrypted_key_1 := Eval vm_compute in err_of (decrypt_text CXC20P KdfEs KX25519 None (BOB_KID_X25519_1, BOB_KEY_X25519_1) MSG_ANONCRYPT_X25519_XC20P_UNDECODABLE_EC).
Example decrypt_works_undecodable_encrypted_key_1 : r_decrypt_works_undecodable_encrypted_key_1 = Some Malformed. Proof. reflexivity. Qed.
(** src/jwe/decrypt.rs:405 *)
Definition r_decrypt_works_undecodable_tag_1 := Eval vm_compute in err_of (decrypt_text CXC20P KdfEs KX25519 None (BOB_KID_X25519_1, BOB_KEY_X25519_1) MSG_ANONCRYPT_X25519_XC20P_UNDECODABLE_TAG).
Example decrypt_works_undecodable_tag_1 : r_decrypt_works_undecodable_tag_1 = Some Malformed. Proof. reflexivity. Qed.
(** src/jwe/decrypt.rs:427 *)
Definition r_decrypt_works_undecodable_iv_1 := Eval vm_compute in err_of (decrypt_text CXC20P KdfEs KX25519 None (BOB_KID_X25519_1, BOB_KEY_X25519_1) MSG_ANONCRYPT_X25519_XC20P_UNDECODABLE_IV).
Example decrypt_works_undecodable_iv_1 : r_decrypt_works_undecodable_iv_1 = Some Malformed. Proof. reflexivity. Qed.
(** src/jwe/decrypt.rs:449 *)
Definition r_decrypt_works_undecodable_ciphertext_1 := Eval vm_compute in err_of (decrypt_text CXC20P KdfEs KX25519 None (BOB_KID_X25519_1, BOB_KEY_X25519_1) MSG_ANONCRYPT_X25519_XC20P_UNDECODABLE_CIPHERTEXT).
Example decrypt_works_undecodable_ciphertext_1 : r_decrypt_works_undecodable_ciphertext_1 = Some Malformed. Proof. reflexivity. Qed.
(** src/jwe/decrypt.rs:496 *)
Definition r_decrypt_works_epk_wrong_point_1 := Eval vm_compute in err_of (decrypt_text CXC20P KdfEs KP256 None (BOB_KID_P256_1, BOB_KEY_P256_1) MSG_ANONCRYPT_P256_XC20P_EPK_WRONG_POINT).
Example decrypt_works_epk_wrong_point_1 : r_decrypt_works_epk_wrong_point_1 = Some Malformed. Proof. reflexivity. Qed.
(** src/jwe/decrypt.rs:514 *)
Definition r_decrypt_works_different_recipient_key_1 := Eval vm_compute in err_of (decrypt_text CXC20P KdfEs KX25519 None (BOB_KID_X25519_1, BOB_KEY_X25519_2) MSG_ANONCRYPT_X25519_XC20P).
Example decrypt_works_different_recipient_key_1 : r_decrypt_works_different_recipient_key_1 = Some Malformed. Proof. reflexivity. Qed.
(** src/jwe/decrypt.rs:514 *)
Definition r_decrypt_works_different_recipient_key_2 := Eval vm_compute in err_of (decrypt_text CA256CbcHs512 KdfEs KX25519 None (BOB_KID_X25519_1, BOB_KEY_X25519_2) MSG_ANONCRYPT_X25519_A256CBC).
Example decrypt_works_different_recipient_key_2 : r_decrypt_works_different_recipient_key_2 = Some Malformed. Proof. reflexivity. Qed.
(** src/jwe/decrypt.rs:514 *)
Definition r_decrypt_works_different_recipient_key_3 := Eval vm_compute in err_of (decrypt_text CA256Gcm KdfEs KX25519 None (BOB_KID_X25519_1, BOB_KEY_X25519_2) MSG_ANONCRYPT_X25519_A256GSM).
Example decrypt_works_different_recipient_key_3 : r_decrypt_works_different_recipient_key_3 = Some Malformed. Proof. reflexivity. Qed.
(** src/jwe/decrypt.rs:514 *)
Definition r_decrypt_works_different_recipient_key_4 := Eval vm_compute in err_of (decrypt_text CXC20P KdfEs KP256 None (BOB_KID_P256_1, BOB_KEY_P256_2) MSG_ANONCRYPT_P256_XC20P).
Example decrypt_works_different_recipient_key_4 : r_decrypt_works_different_recipient_key_4 = Some Malformed. Proof. reflexivity. Qed.
(** src/jwe/decrypt.rs:514 *)
Definition r_decrypt_works_different_recipient_key_5 := Eval vm_compute in err_of (decrypt_text CA256CbcHs512 KdfEs KP256 None (BOB_KID_P256_1, BOB_KEY_P256_2) MSG_ANONCRYPT_P256_A256CBC).
Example decrypt_works_different_recipient_key_5 : r_decrypt_works_different_recipient_key_5 = Some Malformed. Proof. reflexivity. Qed.
(** src/jwe/decrypt.rs:514 *)
Definition r_decrypt_works_different_recipient_key_6 := Eval vm_compute in err_of (decrypt_text CA256Gcm KdfEs KP256 None (BOB_KID_P256_1, BOB_KEY_P256_2) MSG_ANONCRYPT_P256_A256GSM).
Example decrypt_works_different_recipient_key_6 : r_decrypt_works_different_recipient_key_6 = Some Malformed. Proof. reflexivity. Qed.
(** src/jwe/decrypt.rs:514 *)
Definition r_decrypt_works_different_recipient_key_7 := Eval vm_compute in err_of (decrypt_text CA256CbcHs512 Kdf1pu KX25519 (Some (ALICE_KID_X25519_1, ALICE_PKEY_X25519_1)) (BOB_KID_X25519_1, BOB_KEY_X25519_2) MSG_AUTHCRYPT_X25519_A256CBC).
Example decrypt_works_different_recipient_key_7 : r_decrypt_works_different_recipient_key_7 = Some Malformed. Proof. reflexivity. Qed.
(** src/jwe/decrypt.rs:514 *)
Definition r_decrypt_works_different_recipient_key_8 := Eval vm_compute in err_of (decrypt_text CA256CbcHs512 Kdf1pu KP256 (Some (ALICE_KID_P256_1, ALICE_PKEY_P256_1)) (BOB_KID_P256_1, BOB_KEY_P256_2) MSG_AUTHCRYPT_P256_A256CBC).
Example decrypt_works_different_recipient_key_8 : r_decrypt_works_different_recipient_key_8 = Some Malformed. Proof. reflexivity. Qed.
(** src/jwe/decrypt.rs:626 *)
Definition r_decrypt_works_changed_enc_key_1 := Eval vm_compute in err_of (decrypt_text CXC20P KdfEs KX25519 None (BOB_KID_X25519_1, BOB_KEY_X25519_1) MSG_ANONCRYPT_X25519_XC20P_CHANGED_ENC_KEY).
Example decrypt_works_changed_enc_key_1 : r_decrypt_works_changed_enc_key_1 = Some Malformed. Proof. reflexivity. Qed.
(** src/jwe/decrypt.rs:626 *)
Definition r_decrypt_works_changed_enc_key_2 := Eval vm_compute in err_of (decrypt_text CA256CbcHs512 KdfEs KX25519 None (BOB_KID_X25519_1, BOB_KEY_X25519_1) MSG_ANONCRYPT_X25519_A256CBC_CHANGED_ENC_KEY).
Example decrypt_works_changed_enc_key_2 : r_decrypt_works_changed_enc_key_2 = Some Malformed. Proof. reflexivity. Qed.
(** src/jwe/decrypt.rs:626 *)
Definition r_decrypt_works_changed_enc_key_3 := Eval vm_compute in err_of (decrypt_text CA256Gcm KdfEs KX25519 None (BOB_KID_X25519_1, BOB_KEY_X25519_1) MSG_ANONCRYPT_X25519_A256GSM_CHANGED_ENC_KEY).
Example decrypt_works_changed_enc_key_3 : r_decrypt_works_changed_enc_key_3 = Some Malformed. Proof. reflexivity. Qed.
(** src/jwe/decrypt.rs:626 *)
Definition r_decrypt_works_changed_enc_key_4 := Eval vm_compute in err_of (decrypt_text CXC20P KdfEs KP256 None (BOB_KID_P256_1, BOB_KEY_P256_1) MSG_ANONCRYPT_P256_XC20P_CHANGED_ENC_KEY).
Example decrypt_works_changed_enc_key_4 : r_decrypt_works_changed_enc_key_4 = Some Malformed. Proof. reflexivity. Qed.
(** src/jwe/decrypt.rs:626 *)
Definition r_decrypt_works_changed_enc_key_5 := Eval vm_compute in err_of (decrypt_text CA256CbcHs512 KdfEs KP256 None (BOB_KID_P256_1, BOB_KEY_P256_1) MSG_ANONCRYPT_P256_A256CBC_CHANGED_ENC_KEY).
Example decrypt_works_changed_enc_key_5 : r_decrypt_works_changed_enc_key_5 = Some Malformed. Proof. reflexivity. Qed.
(** src/jwe/decrypt.rs:626 *)
Definition r_decrypt_works_changed_enc_key_6 := Eval vm_compute in err_of (decrypt_text CA256Gcm KdfEs KP256 None (BOB_KID_P256_1, BOB_KEY_P256_1) MSG_ANONCRYPT_P256_A256GSM_CHANGED_ENC_KEY).
Example decrypt_works_changed_enc_key_6 : r_decrypt_works_changed_enc_key_6 = Some Malformed. Proof. reflexivity. Qed.
(** src/jwe/decrypt.rs:626 *)
Definition r_decrypt_works_changed_enc_key_7 := Eval vm_compute in err_of (decrypt_text CA256CbcHs512 Kdf1pu KX25519 (Some (ALICE_KID_X25519_1, ALICE_PKEY_X25519_1)) (BOB_KID_X25519_1, BOB_KEY_X25519_1) MSG_AUTHCRYPT_X25519_A256CBC_CHANGED_ENC_KEY).
Example decrypt_works_changed_enc_key_7 : r_decrypt_works_changed_enc_key_7 = Some Malformed. Proof. reflexivity. Qed.
(** src/jwe/decrypt.rs:626 *)
Definition r_decrypt_works_changed_enc_key_8 := Eval vm_compute in err_of (decrypt_text CA256CbcHs512 Kdf1pu KP256 (Some (ALICE_KID_P256_1, ALICE_PKEY_P256_1)) (BOB_KID_P256_1, BOB_KEY_P256_1) MSG_AUTHCRYPT_P256_A256CBC_CHANGED_ENC_KEY).
Example decrypt_works_changed_enc_key_8 : r_decrypt_works_changed_enc_key_8 = Some Malformed. Proof. reflexivity. Qed.
(** src/jwe/decrypt.rs:853 *)
Definition r_decrypt_works_changed_ciphertext_1 := Eval vm_compute in err_of (decrypt_text CXC20P KdfEs KX25519 None (BOB_KID_X25519_1, BOB_KEY_X25519_1) MSG_ANONCRYPT_X25519_XC20P_CHANGED_CIPHERTEXT).
Example decrypt_works_changed_ciphertext_1 : r_decrypt_works_changed_ciphertext_1 = Some Malformed. Proof. reflexivity. Qed.
(** src/jwe/decrypt.rs:853 *)
Definition r_decrypt_works_changed_ciphertext_2 := Eval vm_compute in err_of (decrypt_text CA256CbcHs512 KdfEs KX25519 None (BOB_KID_X25519_1, BOB_KEY_X25519_1) MSG_ANONCRYPT_X25519_A256CBC_CHANGED_CIPHERTEXT).
Example decrypt_works_changed_ciphertext_2 : r_decrypt_works_changed_ciphertext_2 = Some Malformed. Proof. reflexivity. Qed.
(** src/jwe/decrypt.rs:853 *)
Definition r_decrypt_works_changed_ciphertext_3 := Eval vm_compute in err_of (decrypt_text CA256Gcm KdfEs KX25519 None (BOB_KID_X25519_1, BOB_KEY_X25519_1) MSG_ANONCRYPT_X25519_A256GSM_CHANGED_CIPHERTEXT).
Example decrypt_works_changed_ciphertext_3 : r_decrypt_works_changed_ciphertext_3 = Some Malformed. Proof. reflexivity. Qed.
(** src/jwe/decrypt.rs:853 *)
Definition r_decrypt_works_changed_ciphertext_4 := Eval vm_compute in err_of (decrypt_text CXC20P KdfEs KP256 None (BOB_KID_P256_1, BOB_KEY_P256_1) MSG_ANONCRYPT_P256_XC20P_CHANGED_CIPHERTEXT).
Example decrypt_works_changed_ciphertext_4 : r_decrypt_works_changed_ciphertext_4 = Some Malformed. Proof. reflexivity. Qed.
(** src/jwe/decrypt.rs:853 *)
Definition r_decrypt_works_changed_ciphertext_5 := Eval vm_compute in err_of (decrypt_text CA256CbcHs512 KdfEs KP256 None (BOB_KID_P256_1, BOB_KEY_P256_1) MSG_ANONCRYPT_P256_A256CBC_CHANGED_CIPHERTEXT).
Example decrypt_works_changed_ciphertext_5 : r_decrypt_works_changed_ciphertext_5 = Some Malformed. Proof. reflexivity. Qed.
(** src/jwe/decrypt.rs:853 *)
Definition r_decrypt_works_changed_ciphertext_6 := Eval vm_compute in err_of (decrypt_text CA256Gcm KdfEs KP256 None (BOB_KID_P256_1, BOB_KEY_P256_1) MSG_ANONCRYPT_P256_A256GSM_CHANGED_CIPHERTEXT).
Example decrypt_works_changed_ciphertext_6 : r_decrypt_works_changed_ciphertext_6 = Some Malformed. Proof. reflexivity. Qed.
(** src/jwe/decrypt.rs:853 *)
Definition r_decrypt_works_changed_ciphertext_7 := Eval vm_compute in err_of (decrypt_text CA256CbcHs512 Kdf1pu KX25519 (Some (ALICE_KID_X25519_1, ALICE_PKEY_X25519_1)) (BOB_KID_X25519_1, BOB_KEY_X25519_1) MSG_AUTHCRYPT_X25519_A256CBC_CHANGED_CIPHERTEXT).
Example decrypt_works_changed_ciphertext_7 : r_decrypt_works_changed_ciphertext_7 = Some Malformed. Proof. reflexivity. Qed.
(** src/jwe/decrypt.rs:853 *)
Definition r_decrypt_works_changed_ciphertext_8 := Eval vm_compute in err_of (decrypt_text CA256CbcHs512 Kdf1pu KP256 (Some (ALICE_KID_P256_1, ALICE_PKEY_P256_1)) (BOB_KID_P256_1, BOB_KEY_P256_1) MSG_AUTHCRYPT_P256_A256CBC_CHANGED_CIPHERTEXT).
Example decrypt_works_changed_ciphertext_8 : r_decrypt_works_changed_ciphertext_8 = Some Malformed. Proof. reflexivity. Qed.
