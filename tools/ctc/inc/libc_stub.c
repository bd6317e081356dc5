/* Functions of the C library, as the standard describes them. */
#include <stddef.h>
int memcmp(const void* a, const void* b, size_t n) {
  const unsigned char* p = a;
  const unsigned char* q = b;
  for (; n; --n, ++p, ++q) {
    if (*p != *q) {
      return *p < *q ? -1 : 1;
    }
  }
  return 0;
}
