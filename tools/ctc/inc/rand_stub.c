/* The random source: bytes are taken one after the other from a tape whose
   contents are arbitrary and secret. */
#include <stdint.h>
#include <stddef.h>
uint8_t __tape[1];
size_t __pos[1];
int rand_bytes(uint8_t* dst, size_t num_bytes) {
  for (size_t i = 0; i < num_bytes; ++i) {
    dst[i] = __tape[__pos[0] + i];
  }
  __pos[0] += num_bytes;
  return 0;
}
